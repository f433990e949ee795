(** * C152: a dictionary can be restored from its state *)
From Verif Require Import Py PyFacts PyDict MVDModel MVDSpec MVDFacts StateModel.

(** what a dictionary says about a key *)
Definition stored (h : heap) (d : mvd) (k : str) : option (list val) :=
  match dget k d with Some a => Some (hget h a) | None => None end.
(** the list a value of the state stands for *)
Definition meant (h : heap) (p : larg) (l : list val) : Prop :=
  match p with
  | LNone => l = []
  | LRef a => l = hget h a
  | LOne VNone => l = []
  | LOne (VList x) => l = x
  | LOne (VAtom s) => l = [VAtom s]
  end.
Definition exists_in (h : heap) (p : larg) : Prop := match p with LRef a => a < length h | _ => True end.

Lemma stored_view h d k : stored h d k = view h d k.
Proof. unfold stored, view. now destruct (dget k d). Qed.
Lemma meant_larg h p : meant h p (larg_list h p).
Proof. now destruct p as [|a|[s| |l]]. Qed.
Lemma meant_unique h p l l' : meant h p l -> meant h p l' -> l = l'.
Proof. destruct p as [|a|[s| |x]]; cbn; congruence. Qed.
(** lists that existed before are not touched *)
Lemma setlist_grows k p h d : exists l, mv_setlist k p h d = (h ++ [l], dset k (length h) d) /\ l = larg_list h p.
Proof. destruct p; eexists; split; reflexivity. Qed.
Lemma set_lists_grow : forall items h d, exists ext, fst (set_lists items h d) = h ++ ext.
Proof.
  induction items as [|[k p] items IH]; intros h d; [exists []; cbn; now rewrite app_nil_r|]. cbn [set_lists].
  destruct (setlist_grows k p h d) as (l & -> & _). destruct (IH (h ++ [l]) (dset k (length h) d)) as [x ->]. exists ([l] ++ x). now rewrite app_assoc.
Qed.
Lemma larg_grow h x p : exists_in h p -> larg_list (h ++ x) p = larg_list h p.
Proof. destruct p as [|a|v]; cbn; [easy| |easy]. intros H. unfold hget. now rewrite app_nth1. Qed.
Lemma set_lists_spec : forall items h d, ok h d -> wf items -> Forall (fun e => exists_in h (snd e)) items ->
  let (h', d') := set_lists items h d in ok h' d' /\
  (forall k, stored h' d' k = match dget k items with Some p => Some (larg_list h p) | None => stored h d k end) /\
  (forall k a, dget k d' = Some a -> (dget k items <> None -> length h <= a) /\ (dget k items = None -> dget k d = Some a)).
Proof.
  induction items as [|[k p] items IH]; intros h d Hok HW HE; cbn [set_lists]; [split; [exact Hok|split; [reflexivity|intros k0 a H; split; [now intros []|easy]]]|].
  inversion_clear HE as [|? ? He HE']. inversion HW as [|? ? Hnot HW']; subst. pose proof (setlist_spec k p h d Hok) as HS.
  destruct (setlist_grows k p h d) as (l & E & El). rewrite E in *. destruct HS as [HX HV].
  assert (HE2 : Forall (fun e => exists_in (h ++ [l]) (snd e)) items).
  { eapply Forall_impl; [|exact HE']. intros [k1 [|a|v]]; cbn; try easy. rewrite app_length. cbn. lia. }
  specialize (IH (h ++ [l]) (dset k (length h) d) (ext_ok _ _ _ _ HX) HW' HE2). destruct (set_lists items (h ++ [l]) (dset k (length h) d)) as [h' d'].
  destruct IH as (I1 & I2 & I3). split; [exact I1|].
  assert (HN : dget k items = None).
  { destruct (dget k items) as [x|] eqn:EG; [|reflexivity]. exfalso. apply Hnot. apply dget_Some_In in EG. unfold dkeys. apply in_map_iff. now exists (k, x). }
  split.
  - intros k1. rewrite I2. cbn [dget]. destruct (seqb k1 k) eqn:EK.
    + apply seqb_eq in EK as ->. rewrite HN, stored_view, HV. unfold pset. now rewrite seqb_refl.
    + destruct (dget k1 items) as [p1|] eqn:E1.
      * f_equal. apply larg_grow. apply dget_Some_In in E1. rewrite Forall_forall in HE'. exact (HE' _ E1).
      * rewrite !stored_view, HV. unfold pset. now rewrite EK.
  - intros k1 a Ha. destruct (I3 k1 a Ha) as [J1 J2]. cbn [dget]. destruct (seqb k1 k) eqn:EK.
    + apply seqb_eq in EK as ->. specialize (J2 HN). rewrite dget_dset, seqb_refl in J2. injection J2 as <-. now split.
    + split.
      * intros Hx. specialize (J1 Hx). rewrite app_length in J1. cbn in J1. lia.
      * intros Hx. specialize (J2 Hx). now rewrite dget_dset, EK in J2.
Qed.

(** ** C152.  Afterwards every key of the state has the list the state gives for it, and the other keys have theirs *)
Theorem C152_restored :
  forall s items h d attrs h' d' attrs' s', ps_data s = Some items -> ok h d -> wf items -> Forall (fun e => exists_in h (snd e)) items ->
    mv_setstate s h d attrs = (h', d', attrs', s') ->
    (forall k p, In (k, p) items -> exists l, stored h' d' k = Some l /\ meant h p l) /\
    (forall k, ~ In k (map fst items) -> stored h' d' k = stored h d k).
Proof.
  intros s items h d attrs h' d' attrs' s' Hs Hok HW HE H. unfold mv_setstate in H. rewrite Hs in H.
  pose proof (set_lists_spec items h d Hok HW HE) as HS. destruct (set_lists items h d) as [h1 d1]. assert (h1 = h' /\ d1 = d') as [-> ->] by (split; congruence).
  destruct HS as (_ & HS & _). split.
  - intros k p Hin. exists (larg_list h p). rewrite HS, (dget_In k p items HW Hin). split; [reflexivity|apply meant_larg].
  - intros k Hn. rewrite HS. apply dget_None_notin in Hn. unfold dget in *. now rewrite Hn.
Qed.
Print Assumptions C152_restored.
(** the lists are its own: whatever is done to a list that existed before, the restored keys keep theirs *)
Theorem C152_own_lists :
  forall s items h d attrs h' d' attrs' s' a l k, ps_data s = Some items -> ok h d -> wf items -> Forall (fun e => exists_in h (snd e)) items ->
    mv_setstate s h d attrs = (h', d', attrs', s') -> a < length h -> In k (map fst items) ->
    stored (hset h' a l) d' k = stored h' d' k.
Proof.
  intros s items h d attrs h' d' attrs' s' a l k Hs Hok HW HE H Ha Hk. unfold mv_setstate in H. rewrite Hs in H.
  pose proof (set_lists_spec items h d Hok HW HE) as HS. destruct (set_lists items h d) as [h1 d1]. assert (h1 = h' /\ d1 = d') as [-> ->] by (split; congruence).
  destruct HS as (_ & _ & HS). unfold stored. destruct (dget k d') as [b|] eqn:E; [|reflexivity].
  destruct (HS k b E) as [H1 _]. assert (HN : dget k items <> None) by (intros HN; apply dget_None_notin in HN; now apply HN).
  specialize (H1 HN). rewrite hget_hset_other; [reflexivity|lia].
Qed.
Print Assumptions C152_own_lists.
(** what a dictionary says, given to a new one, makes an equal one *)
Lemma set_lists_fresh : forall items h d, wf items -> (forall k, In k (dkeys items) -> dget k d = None) -> Forall (fun e => exists_in h (snd e)) items ->
  Forall (fun e => snd e < length h) d ->
  let (h', d') := set_lists items h d in mv_lists h' d' = mv_lists h d ++ map (fun e => (fst e, larg_list h (snd e))) items.
Proof.
  induction items as [|[k p] items IH]; intros h d HW HN HE HB; cbn [set_lists map]; [now rewrite app_nil_r|].
  inversion_clear HE as [|? ? He HE']. inversion HW as [|? ? Hnot HW']; subst. destruct (setlist_grows k p h d) as (l & -> & El).
  assert (ED : dset k (length h) d = d ++ [(k, length h)]).
  { specialize (HN k (or_introl eq_refl)). clear -HN. induction d as [|[k1 a1] d IH]; [reflexivity|]. cbn [dset dget app] in *. destruct (seqb k k1); [discriminate HN|]. now rewrite IH. }
  specialize (IH (h ++ [l]) (dset k (length h) d) HW').
  destruct (set_lists items (h ++ [l]) (dset k (length h) d)) as [h' d']. rewrite IH.
  - rewrite ED. unfold mv_lists. rewrite map_app, <- app_assoc. cbn [map app fst snd]. rewrite hget_app_new, El. f_equal.
    + apply map_ext_in. intros [k1 a1] Hin. cbn [fst snd]. rewrite Forall_forall in HB. f_equal. apply hget_app_old. exact (HB _ Hin).
    + f_equal. apply map_ext_in. intros [k1 p1] Hin. cbn [fst snd]. f_equal. rewrite Forall_forall in HE'. apply larg_grow. exact (HE' _ Hin).
  - intros k1 Hin. rewrite dget_dset. destruct (seqb k1 k) eqn:E; [apply seqb_eq in E as ->; contradiction|]. apply HN. now right.
  - eapply Forall_impl; [|exact HE']. intros [k1 [|a|v]]; cbn; try easy. rewrite app_length. cbn. lia.
  - rewrite ED. apply Forall_app. split; [|constructor; [cbn; rewrite app_length; cbn; lia|constructor]].
    eapply Forall_impl; [|exact HB]. intros [k1 a1]. cbn. rewrite app_length. lia.
Qed.
Theorem C152_roundtrip :
  forall h d attrs h' d' attrs' s', ok h d ->
    mv_setstate (mkPS (Some (map (fun e => (fst e, LRef (snd e))) d)) attrs) h [] [] = (h', d', attrs', s') ->
    mv_lists h' d' = mv_lists h d /\ (forall a, a < length h -> hget h' a = hget h a).
Proof.
  intros h d attrs h' d' attrs' s' Hok H. unfold mv_setstate in H. cbn [ps_data] in H. destruct Hok as [B _ W].
  set (items := map (fun e => (fst e, LRef (snd e))) d) in *.
  assert (HW : wf items) by (unfold wf, dkeys, items; rewrite map_map; exact W).
  assert (HE : Forall (fun e => exists_in h (snd e)) items).
  { unfold items. apply Forall_map, Forall_forall. intros [k a] Hin. cbn. apply (B k). now apply dget_In. }
  pose proof (set_lists_fresh items h [] HW (fun k _ => eq_refl) HE (Forall_nil _)) as HF. pose proof (set_lists_grow items h []) as [x Hx].
  destruct (set_lists items h []) as [h1 d1]. assert (h1 = h' /\ d1 = d') as [-> ->] by (split; congruence). cbn [fst] in Hx. split.
  - rewrite HF. unfold items. cbn [app mv_lists map]. rewrite map_map. reflexivity.
  - intros a Ha. rewrite Hx. unfold hget. now rewrite app_nth1.
Qed.
Print Assumptions C152_roundtrip.
(** false: the state is used up; a second dictionary restored from it is empty *)
Theorem C152_twice_refuted :
  forall s h attrs h1 d1 a1 s1 h2 d2 a2 s2, mv_setstate s h [] attrs = (h1, d1, a1, s1) -> mv_setstate s1 h1 [] attrs = (h2, d2, a2, s2) ->
    d2 = [] /\ (forall items, ps_data s = Some items -> items <> [] -> d1 <> []).
Proof.
  intros s h attrs h1 d1 a1 s1 h2 d2 a2 s2 H1 H2. unfold mv_setstate in H1. destruct (set_lists match ps_data s with Some l => l | None => [] end h []) as [h0 d0] eqn:E.
  assert (s1 = mkPS None (ps_attrs s)) as -> by congruence. assert (d0 = d1) as -> by congruence. unfold mv_setstate in H2. cbn in H2. split; [congruence|].
  intros items Hs Hne. rewrite Hs in E. destruct items as [|[k p] items]; [easy|]. cbn [set_lists] in E. destruct (setlist_grows k p h []) as (l & E2 & _). rewrite E2 in E.
  assert (HD : forall items h d, d <> [] -> snd (set_lists items h d) <> []).
  { clear. induction items as [|[k p] items IH]; intros h d Hd; [exact Hd|]. cbn [set_lists]. destruct (setlist_grows k p h d) as (l & -> & _). apply IH.
    destruct d as [|[k1 a1] d]; [discriminate|]. cbn [dset]. now destruct (seqb k k1). }
  specialize (HD items (h ++ [l]) (dset k (length h) [])). rewrite E in HD. apply HD. discriminate.
Qed.
Print Assumptions C152_twice_refuted.
(** false for QueryDict: a state with a key is always refused *)
Theorem C152_querydict_refuted :
  forall items attrs, items <> [] -> qd_setstate (mkPS (Some items) attrs) = Err AttributeError.
Proof. intros [|i items] attrs H; [easy|reflexivity]. Qed.
Print Assumptions C152_querydict_refuted.
Example C152_case :
  let h := [[VAtom !"1"; VAtom !"2"]; [VNone]] in let d := [(!"a", 1)] in
  let s := mkPS (Some [(!"k", LRef 0); (!"n", LNone); (!"v", LOne (VAtom !"x"))]) [(!"_mutable", VNone)] in
  ok h d /\ wf [(!"k", LRef 0); (!"n", LNone); (!"v", LOne (VAtom !"x"))] /\
  match mv_setstate s h d [] with
  | (h', d', attrs', s') => mv_lists h' d' = [(!"a", [VNone]); (!"k", [VAtom !"1"; VAtom !"2"]); (!"n", []); (!"v", [VAtom !"x"])] /\ attrs' = [(!"_mutable", VNone)] /\ ps_data s' = None
  end.
Proof.
  cbv zeta. split; [|split].
  - split.
    + intros k a H. cbn [dget] in H. destruct (seqb k !"a"); [|discriminate H]. injection H as <-. cbn. lia.
    + intros k1 k2 a H1 H2. cbn [dget] in *. destruct (seqb k1 !"a") eqn:E1; [|discriminate H1]. destruct (seqb k2 !"a") eqn:E2; [|discriminate H2]. apply seqb_eq in E1, E2. congruence.
    + repeat constructor. intros [].
  - repeat constructor; cbn; intros H; repeat (destruct H as [H|H]; [discriminate H|]); exact H.
  - repeat split.
Qed.
