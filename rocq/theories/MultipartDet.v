(** * With the default handler the result of a multipart parse is determined by the body *)
From Coq Require Import ZifyBool ZifyN ZifyNat.
From Verif Require Import Py PyFacts PyDict Spec StreamModel StreamSpec StreamFacts CodecModel QueryModel
  Base64Model Base64Facts HeaderModel BoundaryModel BoundarySpec BoundaryFacts PartFacts UploadModel
  MultipartModel MultipartSem MultipartFacts MultipartSpec BodySpec.
From Verif Require Export SkipFacts.

(** ** Base64 text cut at a multiple of four characters *)
Lemma b64encode_length_mod s : length (b64encode s) mod 4 = 0.
Proof.
  induction s as [|a|a b|a b c t IH] using list_ind3; [easy|easy|easy|]. cbn [b64encode length].
  change (S (S (S (S (length (b64encode t)))))) with (4 + length (b64encode t)). lia.
Qed.
Lemma b64_cut d : forall x y, x ++ y = b64encode d -> length x mod 4 = 0 ->
  exists d1 d2, d = d1 ++ d2 /\ x = b64encode d1 /\ y = b64encode d2.
Proof.
  assert (H0 : forall d x y, x = [] -> x ++ y = b64encode d ->
            exists d1 d2, d = d1 ++ d2 /\ x = b64encode d1 /\ y = b64encode d2).
  { intros d' x y -> H. now exists [], d'. }
  assert (H1 : forall d x y, length (b64encode d) = 4 -> x <> [] -> length x mod 4 = 0 -> x ++ y = b64encode d ->
            exists d1 d2, d = d1 ++ d2 /\ x = b64encode d1 /\ y = b64encode d2).
  { intros d' x y Hl Hx Hm H. exists d', []. rewrite app_nil_r. pose proof (f_equal (@length _) H) as HL.
    rewrite app_length, Hl in HL. destruct x as [|x0 x]; [easy|]. cbn [length] in *.
    destruct y as [|y0 y]; [now rewrite app_nil_r in H|]. cbn [length] in HL. lia. }
  induction d as [|a|a b|a b c t IH] using list_ind3; intros x y H Hm.
  - destruct x; [|easy]. now apply H0.
  - destruct x as [|x0 x]; [now apply H0|now apply H1].
  - destruct x as [|x0 x]; [now apply H0|now apply H1].
  - destruct x as [|x0 [|x1 [|x2 [|x3 x]]]]; [now apply H0|cbn in Hm; lia..|].
    cbn [b64encode app] in H. injection H as -> -> -> -> H.
    destruct (IH x y H) as (d1 & d2 & -> & -> & ->).
    { cbn [length] in Hm. lia. }
    exists (a :: b :: c :: d1), d2. now cbn [b64encode app].
Qed.

Lemma bytes_only_app a b : bytes_only (a ++ b) = bytes_only a && bytes_only b.
Proof. unfold bytes_only. apply forallb_app. Qed.

Section Conv.
  Context (reg : registry) (name2cp : str -> option N) (mk_temp : str -> res unit) (st : mset) (m : Z).
  Context (Hm : (0 <= m)%Z) (Hst : ms_fmem st = Some m).
  (** creating a temporary file fails with an OSError *)
  Context (Hmk : forall s, mk_temp s <> Err StopFutureHandlers).

  (** the handler while it holds [w] of the file [i], [T] bytes in all *)
  Definition conv_of (T : nat) (i : finfo) (w : str) : convh :=
    if Z.ltb m (Z.of_nat T) then mkConv (ITemp (mkTemp (Some i) (Some w))) T true
    else mkConv (IMem (mkMem (Some true) (Some i) (Some w))) T false.
  (** the handler between files *)
  Definition conv_rel (T : nat) (c : convh) : Prop :=
    cv_received c = T /\
    if Z.ltb m (Z.of_nat T) then cv_switched c = true /\ exists t, cv_inner c = ITemp t
    else cv_switched c = false /\ exists a b, cv_inner c = IMem (mkMem (Some true) a b).
  Definition spill (T n : nat) (i : finfo) : res unit :=
    if Z.ltb m (Z.of_nat T) then Ok tt
    else if Z.ltb m (Z.of_nat (T + n)) then mk_temp (temp_suffix (fi_name i)) else Ok tt.

  Lemma conv_of_rel T i w : conv_rel T (conv_of T i w).
  Proof. unfold conv_rel, conv_of. destruct (Z.ltb m (Z.of_nat T)); cbn; eauto. Qed.

  Lemma feed_conv T i w c k : feed mk_temp (Some m) c [HConv (conv_of T i w)] [k] =
    let* _ := spill T (length c) i in Ok ([HConv (conv_of (T + length c) i (w ++ c))], [k + length c]).
  Proof.
    unfold spill, conv_of. destruct (Z.ltb_spec m (Z.of_nat T)).
    - replace (Z.ltb m (Z.of_nat (T + length c))) with true by lia. reflexivity.
    - unfold feed, h_receive, conv_receive, le_max. cbn [cv_switched cv_received cv_inner negb andb].
      destruct (Z.leb_spec (Z.of_nat (T + length c)) m).
      + replace (Z.ltb m (Z.of_nat (T + length c))) with false by lia. reflexivity.
      + replace (Z.ltb m (Z.of_nat (T + length c))) with true by lia. cbn [negb].
        unfold conv_switch. cbn [cv_inner inner_complete mem_complete mh_activated mh_file mh_info bind inner_info].
        unfold temp_new_file. destruct (mk_temp (temp_suffix (fi_name i))) as [u|e]; reflexivity.
  Qed.

  Lemma spill_add T a b i : (let* _ := spill T a i in spill (T + a) b i) = spill T (a + b) i.
  Proof.
    unfold spill. destruct (Z.ltb_spec m (Z.of_nat T)).
    { cbn [bind]. now replace (Z.ltb m (Z.of_nat (T + a))) with true by lia. }
    destruct (Z.ltb_spec m (Z.of_nat (T + a))).
    - replace (Z.ltb m (Z.of_nat (T + (a + b)))) with true by lia.
      now destruct (mk_temp _) as [[]|e].
    - cbn [bind]. now replace (T + a + b) with (T + (a + b)) by lia.
  Qed.

  Definition full (T : nat) (i : finfo) (w : str) (k : nat) (d : str) : res hstate :=
    let* _ := spill T (length d) i in Ok ([HConv (conv_of (T + length d) i (w ++ d))], [k + length d]).
  Lemma full_app T i w k a b u : spill T (length a) i = Ok u ->
    full (T + length a) i (w ++ a) (k + length a) b = full T i w k (a ++ b).
  Proof.
    intros H. unfold full. rewrite app_length, <- spill_add, H. cbn [bind].
    now rewrite <- !app_assoc, !Nat.add_assoc.
  Qed.
  Lemma full_err T i w k a b e : spill T (length a) i = Err e -> full T i w k (a ++ b) = Err e.
  Proof. intros H. unfold full. rewrite app_length, <- spill_add, H. reflexivity. Qed.
  Lemma full_nil T i w k : full T i w k [] = Ok ([HConv (conv_of T i w)], [k]).
  Proof.
    unfold full, spill. cbn [length]. rewrite !Nat.add_0_r, app_nil_r.
    now destruct (Z.ltb m (Z.of_nat T)).
  Qed.

  Lemma fed_conv b rest hc o : fed mk_temp (Some m) b rest hc o ->
    forall T i w k d, hc = ([HConv (conv_of T i w)], [k]) -> content_of b rest d -> o = full T i w k d.
  Proof.
    induction 1 as [b hc|c rest hc hc' o HF HR IH|c rest hc e HF|c rest x hc hc' o Hmod HD HF HR IH
                   |c rest x hc e Hmod HD HF|c rest hc e Hmod HD|rest hc Hmod];
      intros T i w k d -> Hc; cbn [fst snd content_of] in *.
    - replace d with (@nil N); [now rewrite full_nil|]. destruct b; cbn in Hc; [|easy].
      destruct Hc as [_ Hc]. destruct d as [|? [|? [|? ?]]]; easy.
    - subst d. rewrite feed_conv in HF. destruct (spill T (length c) i) as [u|e] eqn:E; [|easy].
      cbn [bind] in HF. injection HF as <-. rewrite (IH _ _ _ _ rest eq_refl eq_refl). now apply (full_app _ _ _ _ _ _ u).
    - subst d. rewrite feed_conv in HF. destruct (spill T (length c) i) as [u|e'] eqn:E; [easy|].
      cbn [bind] in HF. injection HF as <-. symmetry. now apply full_err.
    - destruct Hc as [Hb Hc]. rewrite remove_ws_app in Hc. destruct (b64_cut d _ _ Hc Hmod) as (d1 & d2 & -> & E1 & E2).
      rewrite bytes_only_app in Hb. apply andb_true_iff in Hb as [Hb1 Hb2].
      rewrite E1, b64_roundtrip in HD by easy. injection HD as <-.
      rewrite feed_conv in HF. destruct (spill T (length d1) i) as [u|e] eqn:E; [|easy].
      cbn [bind] in HF. injection HF as <-. rewrite (IH _ _ _ _ d2 eq_refl); [now apply (full_app _ _ _ _ _ _ u)|easy].
    - destruct Hc as [Hb Hc]. rewrite remove_ws_app in Hc. destruct (b64_cut d _ _ Hc Hmod) as (d1 & d2 & -> & E1 & E2).
      rewrite bytes_only_app in Hb. apply andb_true_iff in Hb as [Hb1 Hb2].
      rewrite E1, b64_roundtrip in HD by easy. injection HD as <-.
      rewrite feed_conv in HF. destruct (spill T (length d1) i) as [u|e'] eqn:E; [easy|].
      cbn [bind] in HF. injection HF as <-. symmetry. now apply full_err.
    - exfalso. destruct Hc as [Hb Hc]. rewrite remove_ws_app in Hc.
      destruct (b64_cut d _ _ Hc Hmod) as (d1 & d2 & -> & E1 & E2).
      rewrite bytes_only_app in Hb. apply andb_true_iff in Hb as [Hb1 Hb2].
      now rewrite E1, b64_roundtrip in HD.
    - destruct Hc as [_ Hc]. now rewrite Hc, b64encode_length_mod in Hmod.
  Qed.

  (** ** The correspondence of states *)
  Definition abs (p : pst) (u : ust) : Prop :=
    p_post p = u_post u /\ p_files p = u_files u /\ p_bytes p = u_bytes u /\ p_keys p = u_keys u /\
    exists c, p_hs p = [HConv c] /\ conv_rel (u_total u) c /\
      match u_pend u with
      | None => p_old p = []
      | Some (n, f) => p_old p = n /\ exists i w, c = conv_of (u_total u) i w /\ p_counters p = [length w] /\
                                               f = upload m (u_total u) i w
      end.

  Lemma finish_abs p u : abs p u -> exists p', finish_file p = Ok p' /\ abs p' (u_finish u) /\ u_pend (u_finish u) = None.
  Proof.
    intros (H1 & H2 & H3 & H4 & c & Hh & HR & HP). unfold u_finish, finish_file.
    destruct (u_pend u) as [[n f]|] eqn:EP.
    - destruct HP as (Hn & i & w & -> & HC & ->). rewrite Hn. destruct n as [|x n].
      + exists p. split; [easy|]. split; [|easy]. split; [easy|]. split; [easy|]. split; [easy|]. split; [easy|].
        exists (conv_of (u_total u) i w). cbn. easy.
      + rewrite Hh, HC. cbn [file_complete h_complete].
        assert (HI : inner_complete (length w) (cv_inner (conv_of (u_total u) i w)) = Ok (Some (upload m (u_total u) i w))).
        { unfold conv_of, upload. now destruct (Z.ltb m (Z.of_nat (u_total u))). }
        rewrite HI. cbn [bind nonempty andb]. unfold file_truthy.
        destruct (negb (Nat.eqb (uf_size (upload m (u_total u) i w)) 0)); cbn [bind].
        all: (eexists; split; [reflexivity|]; split; [|reflexivity]; cbn; rewrite H2; repeat (split; [easy|]);
              exists (conv_of (u_total u) i w); cbn; easy).
    - rewrite HP. exists p. split; [easy|]. split; [|easy]. split; [easy|]. split; [easy|]. split; [easy|]. split; [easy|].
      exists c. now rewrite EP.
  Qed.

  Lemma new_files_conv i c T : conv_rel T c ->
    new_files mk_temp i [HConv c] =
      let* _ := if Z.ltb m (Z.of_nat T) then mk_temp (temp_suffix (fi_name i)) else Ok tt in
      Ok [HConv (conv_of T i [])].
  Proof.
    intros (HT & H). unfold new_files, h_new_file, conv_new_file, conv_of. rewrite HT.
    destruct (Z.ltb m (Z.of_nat T)).
    - destruct H as (Hs & t & ->). cbn [inner_new_file]. unfold temp_new_file. rewrite Hs.
      pose proof (Hmk (temp_suffix (fi_name i))) as HX.
      destruct (mk_temp _) as [u|e]; [easy|]. cbn. now destruct e.
    - destruct H as (Hs & a & b & ->). cbn. now rewrite Hs.
  Qed.

  Lemma file_total T (w : str) i :
    (let* _ := if Z.ltb m (Z.of_nat T) then mk_temp (temp_suffix (fi_name i)) else Ok tt in spill T (length w) i) =
    if Z.ltb m (Z.of_nat (T + length w)) then (let* _ := mk_temp (temp_suffix (fi_name i)) in Ok tt) else Ok tt.
  Proof.
    unfold spill. destruct (Z.ltb_spec m (Z.of_nat T)).
    - replace (Z.ltb m (Z.of_nat (T + length w))) with true by lia. reflexivity.
    - cbn [bind]. destruct (Z.ltb m (Z.of_nat (T + length w))); [|easy]. now destruct (mk_temp _) as [[]|e].
  Qed.

  (** ** One part *)
  Lemma step_det p u t it o : abs p u -> item_of reg name2cp t it -> step reg name2cp mk_temp st p t o ->
    match u_step reg mk_temp st m it u with
    | Err e => o = OErr e
    | Ok u' => exists p', o = (match it with KSkip => OSkip p' | _ => ODone p' end) /\ abs p' u'
    end.
  Proof.
    intros HA HI HS. unfold step in HS. unfold item_of in HI. unfold u_step.
    destruct (classify reg t) as [[[ty h] payload]|e]; [|now subst it].
    destruct (finish_abs p u HA) as (p1 & EF & HA1 & HN). rewrite EF in HS. clear HA.
    set (u1 := u_finish u) in *.
    destruct (part_action name2cp ty h) as [[|name tenc|i b64]|e].
    - subst it. now exists p1.
    - subst it. subst o. destruct HA1 as (H1 & H2 & H3 & H4 & HC).
      unfold field_step, u_field. rewrite H1, H3, H4.
      destruct (match ms_dnum st with Some n => Z.ltb n (u_keys u1 + 1) | None => false end); [easy|].
      match goal with |- context [@bind str ust ?x _] => destruct x as [raw|e] end; cbn [bind]; [|easy].
      match goal with |- context [@bind str ust ?x _] => destruct x as [data|e] end; cbn [bind]; [|easy].
      destruct (match ms_dmem st with Some n => _ | None => false end); [easy|].
      destruct (post_append _ _ _ _ _) as [post|e]; cbn [bind]; [|easy].
      eexists. split; [reflexivity|]. cbn. rewrite H2. repeat (split; [easy|]). easy.
    - destruct HI as (w & Hc & ->). destruct HA1 as (H1 & H2 & H3 & H4 & c & Hh & HR & HP).
      rewrite Hh, (new_files_conv i c _ HR) in HS. unfold u_file.
      pose proof (file_total (u_total u1) w i) as HT.
      destruct (if Z.ltb m (Z.of_nat (u_total u1)) then mk_temp (temp_suffix (fi_name i)) else Ok tt) as [x|e] eqn:E1; cbn [bind] in HS, HT.
      + destruct HS as (r & HF & Ho). rewrite Hst in HF.
        pose proof (fed_conv _ _ _ _ HF (u_total u1) i [] 0 w eq_refl Hc) as Hr. unfold full in Hr. rewrite HT in Hr.
        destruct (Z.ltb m (Z.of_nat (u_total u1 + length w))) eqn:E2.
        * destruct (mk_temp (temp_suffix (fi_name i))) as [y|e] eqn:E3; cbn [bind] in *; subst r; [|easy].
          subst o. eexists. split; [reflexivity|]. cbn. repeat (split; [easy|]).
          eexists. split; [reflexivity|]. split; [apply conv_of_rel|]. split; [easy|]. now exists i, w.
        * cbn [bind] in *. subst r. subst o. eexists. split; [reflexivity|]. cbn. repeat (split; [easy|]).
          eexists. split; [reflexivity|]. split; [apply conv_of_rel|]. split; [easy|]. now exists i, w.
      + destruct (Z.ltb m (Z.of_nat (u_total u1 + length w))) eqn:E2; [|easy].
        destruct (mk_temp _) as [y|e']; cbn [bind] in *; [easy|]. now injection HT as <-.
    - now subst it.
  Qed.

  (** ** All parts *)
  Lemma finish_idem u : u_finish (u_finish u) = u_finish u.
  Proof. unfold u_finish. destruct (u_pend u) as [[n f]|] eqn:E; [reflexivity|]. now rewrite E. Qed.
  (** a piece all rests of which are skipped does nothing but end the file before it, wherever
      in it the loop goes on *)
  Lemma skip_all D r p o : parses reg name2cp mk_temp st D r p o -> forall t af u,
    r <> [] -> block D r t af -> item_of reg name2cp t KSkip -> skipped t -> abs p u ->
    exists p', abs p' (u_finish u) /\ parses reg name2cp mk_temp st D (odef af) p' o.
  Proof.
    induction 1 as [p|r t1 af1 p e Hr1 Hb1 HS1|r t1 af1 p p' o Hr1 Hb1 HS1 HP IH|r t1 af1 p p' o Hr1 Hb1 HS1 HP IH
                     |r t1 af1 p p' k o Hr1 Hb1 HS1 Hk HP IH]; intros t af u Hr Hb Hi Hsk HA; [easy|..];
      destruct (block_det D r _ _ _ _ Hb Hb1) as [<- <-];
      pose proof (step_det p u t KSkip _ HA Hi HS1) as HX; cbn [u_step] in HX;
      destruct HX as (p2 & HX & HA2); try easy.
    - injection HX as <-. now exists p'.
    - injection HX as <-. destruct (skipn k r) as [|x r'] eqn:E.
      + exists p'. split; [easy|]. destruct Hb as [v w [Hf _]|Hn]; [|exact HP].
        assert (HL : length (skipn k r) = 0) by now rewrite E. rewrite skipn_length in HL.
        destruct (trim_eol_prefix v) as (y & Hy). pose proof (f_equal (@length N) Hy) as HL2. rewrite app_length in HL2.
        subst r. rewrite !app_length in HL. destruct w as [|z w]; [exact HP|]. cbn [length] in HL. lia.
      + rewrite <- E in *. destruct (IH (skipn k t) af (u_finish u)) as (p3 & H1 & H2).
        * now rewrite E.
        * apply block_skipn; [easy|lia].
        * now apply Hsk.
        * now apply skipped_skipn.
        * easy.
        * exists p3. now rewrite finish_idem in H1.
  Qed.

  Theorem run_det D : forall r ts, splits D r ts -> forall its, Forall2 (item_of reg name2cp) ts its ->
    Forall2 small ts its -> forall p u o, abs p u -> parses reg name2cp mk_temp st D r p o ->
    match u_run reg mk_temp st m its u with
    | Err e => o = Err e
    | Ok u' => exists p', o = Ok p' /\ abs p' u'
    end.
  Proof.
    induction 1 as [|r t af ts Hr Hb HS IH]; intros its HI Hsm p u o HA HP.
    - inversion HI; subst. cbn. inversion HP; subst; try easy. now exists p.
    - inversion HI as [|t' it ts' its' Hit HI' E1 E2]; subst.
      inversion Hsm as [|? ? ? ? Hs1 Hsm']; subst. cbn [u_run]. pose proof HP as HP0.
      destruct HP as [|r t1 af1 p e Hr1 Hb1 HS1|r t1 af1 p p' o Hr1 Hb1 HS1 HP|r t1 af1 p p' o Hr1 Hb1 HS1 HP
                     |r t1 af1 p p' k o Hr1 Hb1 HS1 Hk HP]; [easy|..];
        destruct (block_det D r _ _ _ _ Hb Hb1) as [<- <-];
        pose proof (step_det p u t it _ HA Hit HS1) as HX;
        destruct (u_step reg mk_temp st m it u) as [u'|e'] eqn:ES; cbn [bind]; try easy.
      + destruct HX as (p' & HX & _). now destruct it.
      + now injection HX as <-.
      + destruct HX as (p2 & HX & HA2). destruct it; (try easy); injection HX as <-; now apply (IH its' HI' Hsm' p').
      + destruct HX as (p2 & HX & HA2). destruct it; (try easy); injection HX as <-; now apply (IH its' HI' Hsm' p').
      + destruct HX as (p2 & HX & HA2). destruct it; (try easy). 
        destruct (skip_all D r p o HP0 t af u Hr Hb Hit (Hs1 eq_refl) HA) as (p3 & HA3 & HP3).
        cbn [u_step] in ES. injection ES as <-. now apply (IH its' HI' Hsm' p3).
  Qed.

  Lemma start_abs len : abs (start_state st len [HConv new_conv]) u_start.
  Proof.
    unfold abs, start_state. cbn. repeat (split; [easy|]). eexists. split; [reflexivity|]. split; [|easy].
    rewrite Hst. cbn. unfold conv_rel. cbn. unfold mem_raw_input, le_max.
    replace (Z.leb 0 m) with true by lia. replace (Z.ltb m 0) with false by lia. split; [easy|]. split; [easy|]. now exists None, None.
  Qed.
End Conv.

(** ** Reading the body from a file or socket *)
Lemma src_end s n cs q : src_error s = None -> yields (ci_next src_read) (mkCI s n) cs None q -> 0 < n -> ci_flo q = [].
Proof.
  intros He HY Hn. remember (mkCI s n) as p eqn:Ep. remember None as e eqn:Ee. revert s He Ep.
  induction HY as [p q H1 H2|p q e0 H1|p c p1 cs e0 q H1 H2 IH]; intros s He ->; [|easy|].
  - unfold ci_next in H1. cbn [ci_flo ci_size] in H1. pose proof (src_read_spec n s Hn) as HS.
    destruct (src_read n s) as [[[|x d]|e1] s'].
    + injection H1 as <-. cbn. apply HS.
    + easy.
    + destruct HS as (_ & HS). congruence.
  - unfold ci_next in H1. cbn [ci_flo ci_size] in H1. pose proof (src_read_spec n s Hn) as HS.
    destruct (src_read n s) as [[[|x d]|e1] s'].
    + easy.
    + injection H1 as _ <-. apply (IH Ee s'); [|easy]. destruct HS as (_ & HS & _). congruence.
    + now destruct e1.
Qed.

Section Source.
  Context (reg : registry) (name2cp : str -> option N) (mk_temp : str -> res unit) (st : mset) (D : str).
  Context (HD : Dok D).

  Definition parse_src (fuel csize : nat) (len : Z) (hs : list handler) (s : src)
    : res (dict (list entry) * dict (list ufile)) * src :=
    mp_parse src_read it_exhaust reg name2cp mk_temp st D fuel csize len hs s.
  (** enough fuel for every body that does not make the parser run forever *)
  Definition enough (s : src) : nat := 2 * length (src_bytes s) + 4.

  (** any handlers *)
  Theorem parse_src_sem s csize len hs qd fuel : 0 < csize -> src_error s = None ->
    querydict reg (Some (ms_query st)) None true = Ok qd -> len <> 0%Z -> enough s <= fuel ->
    exists o, parses reg name2cp mk_temp st D (src_bytes s) (start_state st len hs) o /\
      match o with
      | Err e => fst (parse_src fuel csize len hs s) = Err e
      | Ok p => parse_src fuel csize len hs s = (Ok (p_post p, p_files p), [])
      end.
  Proof.
    intros Hc He Hq Hl Hf. destruct (chunkiter_yields s csize Hc ltac:(now rewrite He)) as (cs & q & HY & HC & HF).
    rewrite He in HY. pose proof (src_end s csize cs q He HY Hc) as Hend.
    assert (HN : Forall (fun c => c <> []) cs).
    { eapply Forall_impl; [|exact HF]. intros c Hx ->. cbn in Hx. lia. }
    assert (HLc : length cs <= length (concat cs)).
    { clear -HF. induction HF as [|c cs Hx _ IH]; [easy|]. cbn. rewrite app_length. lia. }
    unfold enough in Hf. rewrite <- HC in *.
    destruct (parse_sem src_read it_exhaust reg name2cp mk_temp st D HD s csize cs q len hs qd HY HN Hq Hl fuel
                ltac:(lia)) as (o & HP & HO).
    exists o. split; [easy|]. destruct o as [p|e]; [|easy]. unfold parse_src. rewrite HO, Hend. reflexivity.
  Qed.

  (** the default handler *)
  Theorem parse_src_det s csize len m qd fuel ts its : 0 < csize -> src_error s = None ->
    querydict reg (Some (ms_query st)) None true = Ok qd -> len <> 0%Z -> enough s <= fuel ->
    ms_fmem st = Some m -> (0 <= m)%Z -> (forall x, mk_temp x <> Err StopFutureHandlers) ->
    splits D (src_bytes s) ts -> Forall2 (item_of reg name2cp) ts its -> Forall2 small ts its ->
    match u_run reg mk_temp st m its u_start with
    | Err e => fst (parse_src fuel csize len [HConv new_conv] s) = Err e
    | Ok u => parse_src fuel csize len [HConv new_conv] s = (Ok (u_post u, u_files u), [])
    end.
  Proof.
    intros Hc He Hq Hl Hf Hst Hm Hmk HS HI Hsm.
    destruct (parse_src_sem s csize len [HConv new_conv] qd fuel Hc He Hq Hl Hf) as (o & HP & HO).
    pose proof (run_det reg name2cp mk_temp st m Hst Hmk D _ _ HS its HI Hsm _ u_start o
                  (start_abs st m Hm Hst len) HP) as HR.
    destruct (u_run reg mk_temp st m its u_start) as [u|e].
    - destruct HR as (p & -> & H1 & H2 & _). now rewrite HO, H1, H2.
    - now subst o.
  Qed.
End Source.
