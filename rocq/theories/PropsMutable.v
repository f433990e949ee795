(** * Theorems C129, C130: a mutable QueryDict is a map from keys to lists; byte strings given to it *)
From Verif Require Import Py PyFacts PyDict CodecModel CodecFacts QueryModel QueryFacts Spec PropsData.

(** ** The specification: a function from keys to lists *)
Definition qmap := str -> option (list pystr).
Definition put (k : str) (x : option (list pystr)) (m : qmap) : qmap := fun y => if seqb y k then x else m y.
(** text: unicode, or bytes in ASCII *)
Definition textual (p : pystr) : bool := match p with PU _ => true | PB s => ascii_only s end.
Definition last_only (l : list pystr) : list pystr := match rev l with [] => [] | v :: _ => [v] end.
Definition or_empty (l : option (list pystr)) : list pystr := match l with Some l => l | None => [] end.
(** one item of [update]: the values are added to those there are *)
Definition m_extend (k : pystr) (vs : list pystr) (m : qmap) : res (list pystr) * qmap :=
  match m (key_of k) with
  | Some l => (Ok [], put (key_of k) (Some (l ++ vs)) m)
  | None => if textual k then (Ok [], put (key_of k) (Some vs) m) else (Err UnicodeDecodeError, m)
  end.
Fixpoint m_update (items : list (pystr * list pystr)) (m : qmap) : res (list pystr) * qmap :=
  match items with
  | [] => (Ok [], m)
  | (k, vs) :: r => match m_extend k vs m with (Ok _, m) => m_update r m | (Err e, m) => (Err e, m) end
  end.
(** what each call returns, a value being a list of one, and what it leaves *)
Definition m_do (o : qop) (m : qmap) : res (list pystr) * qmap :=
  match o with
  | QSetItem k v => if textual k && textual v then (Ok [], put (key_of k) (Some [v]) m) else (Err UnicodeDecodeError, m)
  | QDelItem k => match m (key_of k) with None => (Err KeyError, m) | Some _ => (Ok [], put (key_of k) None m) end
  | QSetList k None => (Err (if textual k then TypeError else UnicodeDecodeError), m)
  | QSetList k (Some l) => if textual k && forallb textual l then (Ok [], put (key_of k) (Some l) m) else (Err UnicodeDecodeError, m)
  | QSetListDefault k l =>
      match m (key_of k) with
      | Some l' => (Ok l', m)
      | None => if textual k && forallb textual (or_empty l) then (Ok (or_empty l), put (key_of k) (Some (or_empty l)) m)
                else (Err UnicodeDecodeError, m)
      end
  | QAppendList k v => if textual k && textual v then (Ok [], put (key_of k) (Some (or_empty (m (key_of k)) ++ [v])) m)
                       else (Err UnicodeDecodeError, m)
  | QUpdate items => m_update items m
  | QPop k d => match m (key_of k), d with
                | Some l, _ => (Ok l, put (key_of k) None m)
                | None, Some l => (Ok l, m)
                | None, None => (Err KeyError, m)
                end
  | QPopItem k => match m k with Some l => (Ok l, put k None m) | None => (Err KeyError, m) end
  | QClear => (Ok [], fun _ => None)
  | QSetDefault k v =>
      if textual k && textual v
      then match m (key_of k) with Some l => (Ok (last_only l), m) | None => (Ok [v], put (key_of k) (Some [v]) m) end
      else (Err UnicodeDecodeError, m)
  end.
Fixpoint m_all (os : list qop) (m : qmap) : list (res (list pystr)) * qmap :=
  match os with
  | [] => ([], m)
  | o :: r => let (x, m1) := m_do o m in let (xs, m2) := m_all r m1 in (x :: xs, m2)
  end.

(** ** The calls, with what they return *)
Definition nothing (x : qres unit) : qres (list pystr) := (match fst x with Ok _ => Ok [] | Err e => Err e end, snd x).
Definition qdo (reg : registry) (o : qop) (q : qdict) : qres (list pystr) :=
  match o with
  | QSetItem k v => nothing (q_setitem reg k v q)
  | QDelItem k => nothing (q_delitem k q)
  | QSetList k l => nothing (q_setlist reg k l q)
  | QSetListDefault k l => q_setlistdefault reg k l q
  | QAppendList k v => nothing (q_appendlist reg k v q)
  | QUpdate items => nothing (q_update reg items q)
  | QPop k d => q_pop k d q
  | QPopItem k => q_popitem k q
  | QClear => nothing (q_clear q)
  | QSetDefault k v => q_setdefault reg k v q
  end.
Fixpoint qall (reg : registry) (os : list qop) (q : qdict) : list (res (list pystr)) * qdict :=
  match os with
  | [] => ([], q)
  | o :: r => let (x, q1) := qdo reg o q in let (xs, q2) := qall reg r q1 in (x :: xs, q2)
  end.

(** the dictionary shows the map: as lists by key, and as the keys it has *)
Definition shows (q : qdict) (m : qmap) : Prop := wf (q_d q) /\ forall k, dget k (q_d q) = m k.

Section Steps.
  Context (reg : registry) (c : codec) (Hc : codec_ok c).
  Definition fine (q : qdict) : Prop := q_mut q = true /\ reg (q_enc q) = Some c.
  Definition agree (x : qres (list pystr)) (y : res (list pystr) * qmap) : Prop :=
    fst x = fst y /\ fine (snd x) /\ shows (snd x) (snd y).

  Ltac same := repeat match goal with |- agree _ _ => split | |- _ /\ _ => split end; cbn [fst snd]; try assumption; try reflexivity; try easy.
  Lemma conv_text q p : fine q -> bytes_to_text reg (q_enc q) p = if textual p then Ok p else Err UnicodeDecodeError.
  Proof.
    intros [_ H]. destruct p as [s|u]; [|reflexivity]. unfold bytes_to_text, encode_bytes_replace. rewrite H. cbn [textual].
    destruct (ascii_only s) eqn:E; [|reflexivity]. cbn [bind]. now rewrite (cok_erep c Hc s s (cok_enc_ascii c Hc s E)).
  Qed.
  Lemma conv_texts q l : fine q -> conv_list reg (q_enc q) l = if forallb textual l then Ok l else Err UnicodeDecodeError.
  Proof.
    intros H. induction l as [|p l IH]; [reflexivity|]. cbn [conv_list forallb]. rewrite (conv_text q p H), IH.
    destruct (textual p), (forallb textual l); reflexivity.
  Qed.
  Lemma shows_put q m k l : shows q m -> shows (q_set k l q) (put k (Some l) m).
  Proof. intros [H1 H2]. split; cbn [q_set q_d]; [now apply wf_dset|]. intros x. rewrite dget_dset, H2. unfold put. reflexivity. Qed.
  Lemma shows_drop q m k : shows q m -> shows (mkQD (q_enc q) (q_mut q) (ddel k (q_d q))) (put k None m).
  Proof.
    intros [H1 H2]. split; cbn [q_d]; [now apply wf_ddel|]. intros x. unfold put. destruct (seqb x k) eqn:E.
    - apply seqb_eq in E. subst x. now apply dget_ddel_same.
    - apply seqb_neq in E. rewrite dget_ddel_other by easy. apply H2.
  Qed.
  Lemma fine_put q k l : fine q -> fine (q_set k l q).
  Proof. easy. Qed.
  Lemma put_put k a b m : forall x, put k a (put k b m) x = put k a m x.
  Proof. intros x. unfold put. now destruct (seqb x k). Qed.
  Lemma shows_ext q m m' : shows q m -> (forall x, m x = m' x) -> shows q m'.
  Proof. intros [H1 H2] H. split; [easy|]. intros k. now rewrite H2. Qed.

  Lemma setlist_ok k l q m : fine q -> shows q m ->
    q_setlist reg k (Some l) q = (if textual k && forallb textual l then (Ok tt, q_set (key_of k) l q) else (Err UnicodeDecodeError, q)).
  Proof.
    intros HF HS. unfold q_setlist, q_assert, q_conv. rewrite (proj1 HF), (conv_text q k HF). destruct (textual k); [|reflexivity]. cbn [andb].
    rewrite (conv_texts q l HF). now destruct (forallb textual l).
  Qed.
  Lemma default_ok k l q m : fine q -> shows q m -> agree (q_setlistdefault reg k l q) (m_do (QSetListDefault k l) m).
  Proof.
    intros HF HS. pose proof HS as [HW HG]. cbn [m_do]. unfold q_setlistdefault, q_assert. rewrite (proj1 HF). unfold dmem, q_list at 1. rewrite HG.
    destruct (m (key_of k)) as [l'|] eqn:E; [same|].
    change (match l with None => [] | Some l0 => l0 end) with (or_empty l). rewrite (setlist_ok _ _ _ m HF HS).
    destruct (textual k && forallb textual (or_empty l)); [|same]. split; [|split; [now apply fine_put|now apply shows_put]].
    cbn [fst]. unfold q_list. cbn [q_set q_d]. now rewrite dget_dset_same.
  Qed.
  Lemma extend_ok k vs q m : fine q -> shows q m -> agree (nothing (q_extend reg k vs q)) (m_extend k vs m).
  Proof.
    intros HF HS. unfold q_extend, m_extend. pose proof (default_ok k None q m HF HS) as (H1 & H2 & H3).
    destruct (q_setlistdefault reg k None q) as [[l|e] q']; cbn [fst snd] in *; cbn [m_do] in *.
    - assert (HM : exists m', snd (match m (key_of k) with
          | Some l' => (Ok l', m)
          | None => if textual k && forallb textual (or_empty None) then (Ok (or_empty None), put (key_of k) (Some (or_empty None)) m) else (Err UnicodeDecodeError, m)
          end) = m' /\ m' (key_of k) = Some l /\ forall x, put (key_of k) (Some (l ++ vs)) m' x = put (key_of k) (Some (l ++ vs)) m x).
      { destruct (m (key_of k)) as [l'|] eqn:E; [injection H1 as <-; now exists m|]. cbn [or_empty forallb andb] in *.
        destruct (textual k); [|discriminate]. injection H1 as <-. eexists. split; [reflexivity|]. cbn [andb snd]. split; [unfold put; now rewrite seqb_refl|].
        apply put_put. }
      destruct HM as (m' & HM1 & HM2 & HM3). rewrite HM1 in H3. cbn [nothing fst snd].
      assert (HD : dmem (key_of k) (q_d q') = true) by (unfold dmem; destruct H3 as [_ ->]; now rewrite HM2). rewrite HD.
      assert (HX : shows (q_set (key_of k) (l ++ vs) q') (put (key_of k) (Some (l ++ vs)) m)).
      { eapply shows_ext; [apply shows_put; exact H3|exact HM3]. }
      destruct (m (key_of k)) as [l'|] eqn:E.
      + injection H1 as <-. same.
      + destruct (textual k); cbn in H1; [|discriminate]. injection H1 as ->. cbn [app] in HX. same.
    - destruct (m (key_of k)) as [l'|] eqn:E; [discriminate|]. cbn [or_empty forallb andb] in *. destruct (textual k); [discriminate|].
      cbn [andb snd fst] in *. injection H1 as <-. same.
  Qed.
  Lemma update_ok : forall items q m, fine q -> shows q m -> agree (nothing (q_update reg items q)) (m_update items m).
  Proof.
    induction items as [|[k vs] items IH]; intros q m HF HS; [same|]. cbn [q_update m_update].
    pose proof (extend_ok k vs q m HF HS) as (H1 & H2 & H3). destruct (q_extend reg k vs q) as [[u|e] q'], (m_extend k vs m) as [[l|e'] m']; cbn [nothing fst snd] in *; try discriminate.
    - now apply IH.
    - injection H1 as <-. same.
  Qed.
  Lemma do_ok o q m : fine q -> shows q m -> agree (qdo reg o q) (m_do o m).
  Proof.
    intros HF HS. pose proof HS as [HW HG]. pose proof HF as [HM HR]. destruct o as [k v|k|k l|k l|k v|items|k d|k| |k v]; cbn [qdo].
    - cbn [m_do]. unfold nothing, q_setitem, q_assert, q_conv. rewrite HM, !(conv_text q _ HF). destruct (textual k); [|same].
      destruct (textual v); [|same]. cbn [andb fst snd]. split; [easy|]. split; [now apply fine_put|now apply shows_put].
    - cbn [m_do]. unfold nothing, q_delitem, q_assert. rewrite HM, HG. destruct (m (key_of k)); [|same]. cbn [fst snd].
      split; [easy|]. split; [easy|now apply shows_drop].
    - destruct l as [l|].
      + rewrite (setlist_ok _ _ _ m HF HS). cbn [m_do]. destruct (textual k && forallb textual l); [|same]. cbn [nothing fst snd].
        split; [easy|]. split; [now apply fine_put|now apply shows_put].
      + cbn [m_do]. unfold nothing, q_setlist, q_assert, q_conv. rewrite HM, (conv_text q _ HF). destruct (textual k); same.
    - now apply default_ok.
    - cbn [m_do]. unfold nothing, q_appendlist, q_assert, q_conv. rewrite HM, !(conv_text q _ HF). destruct (textual k) eqn:Ek; [|same].
      destruct (textual v); [|same]. cbn [andb]. pose proof (extend_ok k [v] q m HF HS) as (H1 & H2 & H3).
      unfold m_extend in *. rewrite Ek in *. unfold nothing in *. cbn [fst snd] in *. destruct (m (key_of k)); cbn [fst snd or_empty app] in *; same.
    - now apply update_ok.
    - cbn [m_do]. unfold q_pop, q_assert. rewrite HM, HG. destruct (m (key_of k)); [|destruct d; same].
      split; [easy|]. split; [easy|now apply shows_drop].
    - cbn [m_do]. unfold q_popitem, q_assert. rewrite HM, HG. destruct (m k); [|same]. split; [easy|]. split; [easy|now apply shows_drop].
    - cbn [m_do]. unfold nothing, q_clear, q_assert. rewrite HM. split; [easy|]. split; [easy|]. split; [constructor|easy].
    - cbn [m_do]. unfold q_setdefault, q_assert, q_conv. rewrite HM, !(conv_text q _ HF). destruct (textual k) eqn:Ek; [|same].
      destruct (textual v) eqn:Ev; [|same]. cbn [andb]. unfold dmem. rewrite HG. destruct (m (key_of k)) as [l|] eqn:E.
      + unfold q_getitem. rewrite HG, E. same.
      + unfold q_setitem, q_assert, q_conv. rewrite HM, !(conv_text q _ HF), Ek, Ev. unfold q_getitem. cbn [q_set q_d]. rewrite dget_dset_same.
        split; [easy|]. split; [now apply fine_put|now apply shows_put].
  Qed.
  Lemma all_ok : forall os q m, fine q -> shows q m ->
    fst (qall reg os q) = fst (m_all os m) /\ fine (snd (qall reg os q)) /\ shows (snd (qall reg os q)) (snd (m_all os m)).
  Proof.
    induction os as [|o os IH]; intros q m HF HS; [same|]. cbn [qall m_all]. destruct (do_ok o q m HF HS) as (H1 & H2 & H3).
    destruct (qdo reg o q) as [x q1], (m_do o m) as [y m1]. cbn [fst snd] in *. subst y.
    destruct (IH q1 m1 H2 H3) as (I1 & I2 & I3). destruct (qall reg os q1), (m_all os m1). cbn [fst snd] in *. subst. same.
  Qed.
End Steps.

Lemma built_fine reg c st s q : codec_ok c -> reg (qs_charset st) = Some c -> querydict reg (Some st) s true = Ok q ->
  fine reg c q /\ wf (q_d q).
Proof.
  intros Hc Hr. unfold querydict. destruct (query_text reg (qs_charset st) _) as [t|]; [|discriminate]. cbn [bind].
  destruct (limited_parse_qsl reg t true (qs_charset st) (qs_limit st)) as [l|]; [|discriminate]. cbn [bind].
  assert (HX : forall l q m, fine reg c q -> shows q m -> fine reg c (snd (q_fill reg l q)) /\ wf (q_d (snd (q_fill reg l q)))).
  { clear - Hc. induction l as [|[k v] l IH]; intros q m HF HS; [split; [easy|apply HS]|]. cbn [q_fill].
    destruct (do_ok reg c Hc (QAppendList (PU k) (PU v)) q m HF HS) as (_ & H2 & H3). cbn [qdo] in *.
    destruct (q_appendlist reg (PU k) (PU v) q) as [[u|e] q1]; cbn [nothing fst snd] in *; [now apply (IH _ _ H2 H3)|].
    split; [easy|apply H3]. }
  specialize (HX l (mkQD (qs_charset st) true []) (fun _ => None)). destruct (q_fill reg l _) as [[u|e] q1]; [|discriminate].
  intros E. injection E as <-. cbn [snd] in HX. destruct HX as [[H1 H2] H3]; [now split|split; [constructor|easy]|]. split; [now split|exact H3].
Qed.

(** ** C129 *)
Theorem C129_plain_map :
  forall reg c st s q os, codec_ok c -> reg (qs_charset st) = Some c -> querydict reg (Some st) s true = Ok q ->
    let m := fun k => dget k (q_d q) in
    fst (qall reg os q) = fst (m_all os m) /\
    (forall k, dget k (q_d (snd (qall reg os q))) = snd (m_all os m) k) /\
    NoDup (dkeys (q_d (snd (qall reg os q)))).
Proof.
  intros reg c st s q os Hc Hr HQ m. destruct (built_fine reg c st s q Hc Hr HQ) as [HF HW].
  destruct (all_ok reg c Hc os q m HF) as (H1 & H2 & H3 & H4); [now split|]. split; [exact H1|]. split; [exact H4|exact H3].
Qed.
Print Assumptions C129_plain_map.
(** what a call does to the other keys: nothing *)
Definition about (o : qop) : list str :=
  match o with
  | QSetItem k _ | QDelItem k | QSetList k _ | QSetListDefault k _ | QAppendList k _ | QPop k _ | QSetDefault k _ => [key_of k]
  | QUpdate items => map (fun e => key_of (fst e)) items
  | QPopItem k => [k]
  | QClear => []
  end.
Theorem C129_other_keys :
  forall reg c st s q os, codec_ok c -> reg (qs_charset st) = Some c -> querydict reg (Some st) s true = Ok q ->
    ~ In QClear os -> forall k, ~ In k (flat_map about os) -> dget k (q_d (snd (qall reg os q))) = dget k (q_d q).
Proof.
  intros reg c st s q os Hc Hr HQ HN k Hk. destruct (C129_plain_map reg c st s q os Hc Hr HQ) as (_ & H & _). rewrite H. clear H.
  change (dget k (q_d q)) with ((fun k => dget k (q_d q)) k). generalize (fun k => dget k (q_d q)). clear - HN Hk. intros m.
  assert (HP : forall y x m, k <> y -> put y x m k = m k) by (intros y x m0 Hy; unfold put; apply seqb_neq in Hy; now rewrite Hy).
  assert (HS : forall o m, o <> QClear -> ~ In k (about o) -> snd (m_do o m) k = m k).
  { clear - HP. intros o m HC HA.
    assert (HE : forall k' vs m, k <> key_of k' -> snd (m_extend k' vs m) k = m k).
    { intros k' vs m0 Hne. unfold m_extend. destruct (m0 (key_of k')); [now apply HP|]. destruct (textual k'); [now apply HP|reflexivity]. }
    destruct o as [k' v|k'|k' l|k' l|k' v|items|k' d|k'| |k' v]; cbn [about] in HA; try (assert (Hne : k <> key_of k') by (intros ->; apply HA; now left)); cbn [m_do].
    - destruct (textual k' && textual v); [now apply HP|reflexivity].
    - destruct (m (key_of k')); [now apply HP|reflexivity].
    - destruct l as [l|]; [|reflexivity]. destruct (textual k' && forallb textual l); [now apply HP|reflexivity].
    - destruct (m (key_of k')); [reflexivity|]. destruct (textual k' && _); [now apply HP|reflexivity].
    - destruct (textual k' && textual v); [now apply HP|reflexivity].
    - clear HC. revert m HA. induction items as [|[k' vs] items IH]; intros m HA; [reflexivity|]. cbn [m_update map fst] in *.
      assert (Hne : k <> key_of k') by (intros ->; apply HA; now left). pose proof (HE k' vs m Hne) as E. destruct (m_extend k' vs m) as [[x|x] m1]; cbn [snd] in E; [|exact E].
      rewrite IH; [exact E|]. intros HI. apply HA. now right.
    - destruct (m (key_of k')); [now apply HP|]. now destruct d.
    - assert (Hne : k <> k') by (intros ->; apply HA; now left). destruct (m k'); [now apply HP|reflexivity].
    - now contradiction HC.
    - destruct (textual k' && textual v); [|reflexivity]. destruct (m (key_of k')); [reflexivity|now apply HP]. }
  revert m. induction os as [|o os IH]; intros m; [reflexivity|]. cbn [m_all flat_map] in *. specialize (HS o m).
  destruct (m_do o m) as [x m1]. cbn [snd] in HS. specialize (IH ltac:(intros HI; apply HN; now right) ltac:(intros HI; apply Hk, in_or_app; now right) m1).
  destruct (m_all os m1). cbn [snd] in *. rewrite IH. apply HS; [intros ->; apply HN; now left|intros HI; apply Hk, in_or_app; now left].
Qed.
Print Assumptions C129_other_keys.
(** a call that fails leaves everything as it was; only [update] may have come some way *)
Theorem C129_failed :
  forall reg c st s q os o e, codec_ok c -> reg (qs_charset st) = Some c -> querydict reg (Some st) s true = Ok q ->
    (forall items, o <> QUpdate items) -> let q1 := snd (qall reg os q) in
    fst (qdo reg o q1) = Err e -> forall k, dget k (q_d (snd (qdo reg o q1))) = dget k (q_d q1).
Proof.
  intros reg c st s q os o e Hc Hr HQ HU q1 HE k. destruct (built_fine reg c st s q Hc Hr HQ) as [HF HW].
  destruct (all_ok reg c Hc os q (fun k => dget k (q_d q)) HF) as (_ & H2 & H3); [now split|]. fold q1 in H2, H3.
  destruct (do_ok reg c Hc o q1 _ H2 H3) as (A1 & _ & _ & A3). rewrite A3. rewrite HE in A1. destruct H3 as [_ H4]. rewrite H4.
  set (m := snd (m_all os (fun k => dget k (q_d q)))) in *. clearbody m. clear - HU A1.
  destruct o as [k' v|k'|k' l|k' l|k' v|items|k' d|k'| |k' v]; cbn [m_do] in *; try (now contradiction (HU items));
    repeat match type of A1 with context [match ?x with _ => _ end] => destruct x end; easy.
Qed.
Print Assumptions C129_failed.
Example C129_case :
  match querydict ex_reg (Some ex_st) (Some (PB !"a=1&b=2&a=3")) true with
  | Ok q => let (xs, q') := qall ex_reg [QAppendList (PB !"a") (PU !"4"); QDelItem (PU !"b"); QSetDefault (PU !"c") (PU !"5"); QSetDefault (PU !"a") (PU !"6");
                 QDelItem (PU !"b"); QSetItem (PB [255%N]) (PU !"7"); QUpdate [(PU !"c", [PU !"8"; PU !"9"]); (PB [255%N], []); (PU !"d", [PU !"x"])]; QPop (PU !"c") None;
                 QSetListDefault (PU !"e") None; QSetList (PU !"f") (Some [PB !"u"; PU !"v"])] q in
            xs = [Ok []; Ok []; Ok [PU !"5"]; Ok [PU !"4"]; Err KeyError; Err UnicodeDecodeError; Err UnicodeDecodeError; Ok [PU !"5"; PU !"8"; PU !"9"]; Ok []; Ok []] /\
            q_d q' = [(!"a", [PU !"1"; PU !"3"; PU !"4"]); (!"e", []); (!"f", [PB !"u"; PU !"v"])]
  | Err _ => False
  end.
Proof. vm_compute. split; reflexivity. Qed.

(** ** C130.  Byte strings given to a QueryDict are text in its encoding *)
(** ASCII: it makes no difference, up to equality of Python's strings, in which of the two forms text is given *)
Definition eqv (p q : pystr) : Prop := p = q \/ exists s, ascii_only s = true /\ ((p = PB s /\ q = PU s) \/ (p = PU s /\ q = PB s)).
Inductive op_eqv : qop -> qop -> Prop :=
| e_setitem k k' v v' : eqv k k' -> eqv v v' -> op_eqv (QSetItem k v) (QSetItem k' v')
| e_del k k' : eqv k k' -> op_eqv (QDelItem k) (QDelItem k')
| e_setlist k k' l l' : eqv k k' -> Forall2 eqv l l' -> op_eqv (QSetList k (Some l)) (QSetList k' (Some l'))
| e_default k k' l l' : eqv k k' -> Forall2 eqv l l' -> op_eqv (QSetListDefault k (Some l)) (QSetListDefault k' (Some l'))
| e_default0 k k' : eqv k k' -> op_eqv (QSetListDefault k None) (QSetListDefault k' None)
| e_append k k' v v' : eqv k k' -> eqv v v' -> op_eqv (QAppendList k v) (QAppendList k' v')
| e_update l l' : Forall2 (fun a b => eqv (fst a) (fst b) /\ Forall2 eqv (snd a) (snd b)) l l' -> op_eqv (QUpdate l) (QUpdate l')
| e_pop k k' : eqv k k' -> op_eqv (QPop k None) (QPop k' None)
| e_popitem k : op_eqv (QPopItem k) (QPopItem k)
| e_clear : op_eqv QClear QClear
| e_setdefault k k' v v' : eqv k k' -> eqv v v' -> op_eqv (QSetDefault k v) (QSetDefault k' v').
Definition eqv_opt (a b : option (list pystr)) : Prop :=
  match a, b with Some l, Some l' => Forall2 eqv l l' | None, None => True | _, _ => False end.
Definition eqv_res (a b : res (list pystr)) : Prop :=
  match a, b with Ok l, Ok l' => Forall2 eqv l l' | Err e, Err e' => e = e' | _, _ => False end.

Lemma eqv_key p q : eqv p q -> key_of p = key_of q.
Proof. intros [->|(s & H & [[-> ->]|[-> ->]])]; [reflexivity| |]; cbn [key_of]; now rewrite H. Qed.
Lemma eqv_text p q : eqv p q -> textual p = textual q.
Proof. intros [->|(s & H & [[-> ->]|[-> ->]])]; easy. Qed.
Lemma eqv_texts l l' : Forall2 eqv l l' -> forallb textual l = forallb textual l'.
Proof. induction 1 as [|p q l l' H _ IH]; [reflexivity|]. cbn. now rewrite (eqv_text p q H), IH. Qed.
Lemma eqv_one p q : eqv p q -> Forall2 eqv [p] [q].
Proof. intros H. constructor; [exact H|constructor]. Qed.
Lemma eqv_last l l' : Forall2 eqv l l' -> Forall2 eqv (last_only l) (last_only l').
Proof.
  intros H. assert (HR : Forall2 eqv (rev l) (rev l')).
  { induction H as [|p q l l' H _ IH]; [constructor|]. cbn [rev]. apply Forall2_app; [exact IH|]. now apply eqv_one. }
  clear H. rename HR into H. unfold last_only. destruct H as [|p q a b H _]; [constructor|]. now apply eqv_one.
Qed.
Definition m_eqv (m m' : qmap) : Prop := forall k, eqv_opt (m k) (m' k).
Lemma m_put k a b m m' : m_eqv m m' -> eqv_opt a b -> m_eqv (put k a m) (put k b m').
Proof. intros H1 H2 x. unfold put. destruct (seqb x k); [exact H2|apply H1]. Qed.
Definition same_step (x y : res (list pystr) * qmap) : Prop := eqv_res (fst x) (fst y) /\ m_eqv (snd x) (snd y).
Lemma extend_eqv k k' vs vs' m m' : eqv k k' -> Forall2 eqv vs vs' -> m_eqv m m' -> same_step (m_extend k vs m) (m_extend k' vs' m').
Proof.
  intros Hk Hv Hm. unfold m_extend. rewrite <- (eqv_key _ _ Hk), <- (eqv_text _ _ Hk). pose proof (Hm (key_of k)) as H.
  destruct (m (key_of k)) as [l|], (m' (key_of k)) as [l'|]; cbn in H; try contradiction.
  - split; [constructor|]. apply m_put; [exact Hm|]. cbn. now apply Forall2_app.
  - destruct (textual k); split; try easy; [constructor|]. now apply m_put.
Qed.
Lemma do_eqv o o' m m' : op_eqv o o' -> m_eqv m m' -> same_step (m_do o m) (m_do o' m').
Proof.
  intros Ho Hm. assert (H0 : eqv_res (Ok []) (Ok [])) by constructor.
  destruct Ho as [k k' v v' Hk Hv|k k' Hk|k k' l l' Hk Hl|k k' l l' Hk Hl|k k' Hk|k k' v v' Hk Hv|l l' Hl|k k' Hk|k| |k k' v v' Hk Hv]; cbn [m_do];
    try (rewrite <- (eqv_key _ _ Hk)); try (rewrite <- (eqv_text _ _ Hk)); try (rewrite <- (eqv_text _ _ Hv)); try (pose proof (Hm (key_of k)) as H).
  - destruct (textual k && textual v); [|now split]. split; [exact H0|]. apply m_put; [exact Hm|]. cbn. now apply eqv_one.
  - destruct (m (key_of k)), (m' (key_of k)); cbn in H; try contradiction; [|now split]. split; [exact H0|]. now apply m_put.
  - rewrite <- (eqv_texts _ _ Hl). destruct (textual k && forallb textual l); [|now split]. split; [exact H0|]. now apply m_put.
  - cbn [or_empty]. rewrite <- (eqv_texts _ _ Hl). destruct (m (key_of k)), (m' (key_of k)); cbn in H; try contradiction; [now split|].
    destruct (textual k && forallb textual l); [|now split]. split; [exact Hl|]. now apply m_put.
  - cbn [or_empty forallb]. destruct (m (key_of k)), (m' (key_of k)); cbn in H; try contradiction; [now split|].
    destruct (textual k); [|now split]. split; [exact H0|]. apply m_put; [exact Hm|constructor].
  - destruct (textual k && textual v); [|now split]. split; [exact H0|]. apply m_put; [exact Hm|]. cbn. apply Forall2_app; [|now apply eqv_one].
    destruct (m (key_of k)), (m' (key_of k)); cbn in H; try contradiction; [exact H|constructor].
  - revert m m' Hm. induction Hl as [|[k vs] [k' vs'] l l' [Hk Hv] Hl IH]; intros m m' Hm; [now split|]. cbn [m_update fst snd] in *.
    destruct (extend_eqv k k' vs vs' m m' Hk Hv Hm) as [A1 A2]. destruct (m_extend k vs m) as [[x|x] m1], (m_extend k' vs' m') as [[y|y] m2]; cbn in A1; try contradiction;
      cbn [snd] in A2; [now apply IH|]. subst. now split.
  - destruct (m (key_of k)), (m' (key_of k)); cbn in H; try contradiction; [|now split]. split; [exact H|]. now apply m_put.
  - pose proof (Hm k) as H. destruct (m k), (m' k); cbn in H; try contradiction; [|now split]. split; [exact H|]. now apply m_put.
  - split; [exact H0|]. intros x. exact I.
  - destruct (textual k && textual v); [|now split]. destruct (m (key_of k)), (m' (key_of k)); cbn in H; try contradiction.
    + split; [now apply eqv_last|exact Hm].
    + split; [cbn; now apply eqv_one|]. apply m_put; [exact Hm|]. cbn. now apply eqv_one.
Qed.
Theorem C130_ascii_partial :
  forall reg c st s q os os', codec_ok c -> reg (qs_charset st) = Some c -> querydict reg (Some st) s true = Ok q ->
    Forall2 op_eqv os os' ->
    Forall2 eqv_res (fst (qall reg os q)) (fst (qall reg os' q)) /\
    forall k, eqv_opt (dget k (q_d (snd (qall reg os q)))) (dget k (q_d (snd (qall reg os' q)))).
Proof.
  intros reg c st s q os os' Hc Hr HQ HO. destruct (C129_plain_map reg c st s q os Hc Hr HQ) as (A1 & A2 & _).
  destruct (C129_plain_map reg c st s q os' Hc Hr HQ) as (B1 & B2 & _).
  assert (HX : forall m m', m_eqv m m' -> Forall2 eqv_res (fst (m_all os m)) (fst (m_all os' m')) /\ m_eqv (snd (m_all os m)) (snd (m_all os' m'))).
  { clear - HO. induction HO as [|o o' os os' H HO IH]; intros m m' Hm; [split; [constructor|exact Hm]|]. cbn [m_all].
    destruct (do_eqv o o' m m' H Hm) as [S1 S2]. destruct (m_do o m) as [x m1], (m_do o' m') as [y m2]. cbn [fst snd] in *.
    destruct (IH m1 m2 S2) as [I1 I2]. destruct (m_all os m1), (m_all os' m2). cbn [fst snd] in *. split; [now constructor|exact I2]. }
  destruct (HX (fun k => dget k (q_d q)) (fun k => dget k (q_d q))) as [X1 X2].
  { intros k. destruct (dget k (q_d q)) as [l|]; [|exact I]. cbn. induction l; constructor; [now left|assumption]. }
  rewrite A1, B1. split; [exact X1|]. intros k. rewrite A2, B2. apply X2.
Qed.
Print Assumptions C130_ascii_partial.
(** any other byte string is refused, whether the encoding can decode it or not *)
Theorem C130_bytes_refuted :
  forall reg c b q, reg (q_enc q) = Some c -> q_mut q = true -> ascii_only b = false ->
    forall k v l, fst (q_setitem reg (PB b) v q) = Err UnicodeDecodeError /\
      fst (q_setitem reg (PU k) (PB b) q) = Err UnicodeDecodeError /\
      fst (q_appendlist reg (PB b) v q) = Err UnicodeDecodeError /\
      fst (q_appendlist reg (PU k) (PB b) q) = Err UnicodeDecodeError /\
      fst (q_setlist reg (PB b) l q) = Err UnicodeDecodeError /\
      fst (q_setdefault reg (PB b) v q) = Err UnicodeDecodeError /\
      fst (q_setdefault reg (PU k) (PB b) q) = Err UnicodeDecodeError.
Proof.
  intros reg c b q Hr Hm Hb k v l.
  unfold q_setitem, q_appendlist, q_setlist, q_setdefault, q_assert, q_conv, bytes_to_text, encode_bytes_replace. rewrite Hr, Hm, Hb.
  cbn. repeat split.
Qed.
Print Assumptions C130_bytes_refuted.
(** [update] takes them as values, and they stay bytes *)
Theorem C130_update_refuted :
  forall reg c b k q, codec_ok c -> reg (q_enc q) = Some c -> q_mut q = true ->
    exists q', q_update reg [(PU k, [PB b])] q = (Ok tt, q') /\ dget k (q_d q') = Some (q_list k q ++ [PB b]).
Proof.
  intros reg c b k q Hc Hr Hm. cbn [q_update]. unfold q_extend, q_setlistdefault, q_setlist, q_assert, q_conv. rewrite !Hm. cbn [key_of bytes_to_text conv_list].
  destruct (dmem k (q_d q)) eqn:E.
  - rewrite E. eexists. split; [reflexivity|]. cbn [q_set q_d]. now rewrite dget_dset_same.
  - assert (E2 : q_list k q = []). { unfold q_list. unfold dmem in E. now destruct (dget k (q_d q)). }
    cbn [q_set q_d]. unfold dmem at 1. rewrite dget_dset_same. eexists. split; [reflexivity|]. cbn [q_set q_d]. rewrite dget_dset_same.
    unfold q_list. cbn [q_set q_d]. rewrite dget_dset_same. unfold q_list in E2. now rewrite E2.
Qed.
Print Assumptions C130_update_refuted.
Example C130_case :
  let q := mkQD !"utf-8" true [] in
  decode ex_reg !"utf-8" [195%N; 169%N] = Ok [233%N] /\ fst (q_setitem ex_reg (PU !"a") (PB [195%N; 169%N]) q) = Err UnicodeDecodeError /\
  fst (q_setitem ex_reg (PU !"a") (PU [233%N]) q) = Ok tt.
Proof. vm_compute. repeat split; reflexivity. Qed.
