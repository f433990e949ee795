(** * Proofs about the streams *)
From Verif Require Import Py Spec PyFacts StreamModel StreamSpec.

(** ** What a producer delivers *)
Section Yields.
  Context {P : Type} (pnext : P -> nxt * P).
  Inductive yields : P -> list str -> option exn -> P -> Prop :=
  | y_stop p q : pnext p = (Stop, q) -> pnext q = (Stop, q) -> yields p [] None q
  | y_fail p q e : pnext p = (Raise e, q) -> yields p [] (Some e) q
  | y_chunk p c p' cs e q : pnext p = (Chunk c, p') -> yields p' cs e q -> yields p (c :: cs) e q.
End Yields.

Lemma cur_run_weaken (E E' : Prop) L c os rs c' : (E -> E') ->
  cur_run E L c os rs c' -> cur_run E' L c os rs c'.
Proof.
  intros HE. induction 1 as [c|c o r c1 os rs c2 H1 H2 IH]; [constructor|].
  econstructor; [|exact IH]. clear -HE H1. inversion H1; subst; econstructor; eauto.
Qed.

(** ** Running a list of operations on a LazyStream *)
Section Run.
  Context {P : Type} (pnext : P -> nxt * P).
  Notation LS := (lstream P).

  Definition lift_nxt (r : nxt) : sout :=
    match r with Chunk c => RBytes c | Stop => RStop | Raise e => RExn e end.

  Definition do_op (fuel : nat) (o : sop) (s : LS) : sout * LS :=
    match o with
    | ORead n => match ls_read pnext fuel n s with
                 | (Ok b, s') => (RBytes b, s')
                 | (Err e, s') => (RExn e, s')
                 end
    | ONext => let (r, s') := ls_next pnext s in (lift_nxt r, s')
    | OUnget b => match ls_unget b s with
                  | (Ok _, s') => (RUnit, s')
                  | (Err e, s') => (RExn e, s')
                  end
    | OTell => (RPos (ls_tell s), s)
    end.

  Fixpoint run_ops (fuel : nat) (os : list sop) (s : LS) : list sout * LS :=
    match os with
    | [] => ([], s)
    | o :: os' => let (r, s1) := do_op fuel o s in
                  let (rs, s2) := run_ops fuel os' s1 in (r :: rs, s2)
    end.

  (** stop at the first guard exception (the caller gives up there) *)
  Fixpoint run_until (fuel : nat) (os : list sop) (s : LS) : list sout * LS :=
    match os with
    | [] => ([], s)
    | o :: os' => match do_op fuel o s with
                  | (RExn SuspiciousMultipartForm, s1) => ([RExn SuspiciousMultipartForm], s1)
                  | (r, s1) => let (rs, s2) := run_until fuel os' s1 in (r :: rs, s2)
                  end
    end.

  Lemma unget_cases b (s : LS) :
    match ls_unget b s with
    | (Ok _, s') => ls_prod s' = ls_prod s /\ ls_left s' = b ++ ls_left s /\
                    ls_pos s' = (ls_pos s - zlen b)%Z /\ ls_remaining s' = ls_remaining s
    | (Err e, s') => e = SuspiciousMultipartForm /\ b <> [] /\ ls_prod s' = ls_prod s /\
                    ls_left s' = ls_left s /\ ls_pos s' = ls_pos s /\ ls_remaining s' = ls_remaining s
    end.
  Proof.
    unfold ls_unget. destruct b as [|c b].
    - cbn. unfold zlen; cbn. repeat split; lia.
    - destruct (Nat.ltb _ _); cbn; repeat split; easy.
  Qed.

  (** the stream [s] has bytes [r] ahead at position [p] *)
  Inductive ahead (N : nat) (E : Prop) (L : option Z) : LS -> cursor -> Prop :=
  | ahead_intro s p cs q : ls_prod s = Some p -> yields pnext p cs None q ->
      length cs <= N -> (In [] cs -> E) -> ls_remaining s = L ->
      ahead N E L s (ls_left s ++ concat cs, ls_pos s).

  Lemma ahead_intro' N (E : Prop) L s p cs q r k : ls_prod s = Some p -> yields pnext p cs None q ->
      length cs <= N -> (In [] cs -> E) -> ls_remaining s = L ->
      r = ls_left s ++ concat cs -> k = ls_pos s -> ahead N E L s (r, k).
  Proof. intros H1 H2 H3 H4 H5 -> ->. econstructor; eassumption. Qed.

  Lemma ahead_mono M N E L s c : M <= N -> ahead M E L s c -> ahead N E L s c.
  Proof. intros H HA. inversion HA; subst. econstructor; try eassumption; [lia|easy]. Qed.

  Lemma next_ahead N E L s r p : ahead N E L s (r, p) ->
    match ls_next pnext s with
    | (Chunk c, s') => exists r', r = c ++ r' /\ (c = [] -> E) /\
         ahead N E L s' (r', (p + zlen c)%Z) /\ ls_left s' = [] /\
         (forall M, ahead (S M) E L s (r, p) -> ls_left s = [] -> ahead M E L s' (r', (p + zlen c)%Z))
    | (Stop, s') => r = [] /\ ahead N E L s' ([], p) /\ ls_left s = []
    | (Raise _, _) => False
    end.
  Proof.
    inversion 1 as [s0 pr cs q Hp Hy Hn HE HL [Hs Hc Hk]]. subst. unfold ls_next.
    destruct (ls_left s) as [|c l] eqn:El.
    - rewrite Hp. inversion Hy as [p0 q0 H1 H2|p0 q0 e H1|p0 c p' cs' e q0 H1 H2]; subst.
      + rewrite H1. cbn. split; [easy|]. split; [|easy].
        eapply ahead_intro' with (cs := []); cbn; try easy. eapply y_stop; eassumption.
      + rewrite H1. exists (concat cs'). repeat split.
        * intros ->. apply HE. now left.
        * eapply ahead_intro'; cbn; try easy; try eassumption; cbn in *; [lia|]. intros; apply HE; now right.
        * intros M HM _. inversion HM as [s1 pr1 cs1 q1 Hp1 Hy1 Hn1 HE1 HL1 [Hs1 Hk1]]; subst.
          rewrite Hp in Hp1. injection Hp1 as <-.
          assert (cs1 = c :: cs').
          { clear -Hy Hy1. revert cs1 q1 Hy1. induction Hy; intros cs1 q1 Hy1;
            inversion Hy1; subst; try congruence.
            rewrite H in H0. injection H0 as <- <-. f_equal. eapply IHHy. eassumption. }
          subst cs1. eapply ahead_intro'; cbn; try easy; try eassumption; cbn in *; [lia|].
          intros; apply HE; now right.
    - exists (concat cs). repeat split; try easy.
      + eapply ahead_intro'; cbn; try easy; try eassumption.
  Qed.

  Lemma unget_ahead N E L b s r p : ahead N E L s (r, p) ->
    match ls_unget b s with
    | (Ok _, s') => ahead N E L s' (b ++ r, (p - zlen b)%Z)
    | (Err e, s') => e = SuspiciousMultipartForm /\ b <> []
    end.
  Proof.
    inversion 1 as [s0 pr cs q Hp Hy Hn HE HL [Hs Hc Hk]]. subst.
    pose proof (unget_cases b s) as HU. destruct (ls_unget b s) as [[u|e] s'].
    - destruct HU as (H1 & H2 & H3 & H4). eapply ahead_intro'.
      + rewrite H1. eassumption.
      + eassumption.
      + easy.
      + easy.
      + easy.
      + rewrite H2. now rewrite app_assoc.
      + easy.
    - easy.
  Qed.

  Lemma read_loop_ahead E L : forall fuel m N s r p out, ahead N E L s (r, p) ->
    (match ls_left s with [] => 0 | _ => 1 end) + N + 2 <= fuel -> (0 <= m)%Z ->
    match ls_read_loop pnext fuel m out s with
    | (Ok b, s') => b = out ++ firstn (Z.to_nat m) r /\
        ahead N E L s' (skipn (Z.to_nat m) r, (p + Z.min m (zlen r))%Z)
    | (Err e, s') => e = SuspiciousMultipartForm
    end.
  Proof.
    induction fuel as [|fuel IH]; intros m N s r p out HA Hf Hm; [lia|].
    cbn [ls_read_loop]. destruct (Z.eqb_spec m 0) as [->|Hm0].
    { cbn [Z.to_nat firstn skipn]. rewrite app_nil_r. split; [easy|].
      replace (p + Z.min 0 (zlen r))%Z with p; [easy|]. unfold zlen. lia. }
    destruct (Z.ltb_spec m 0) as [?|_]; [lia|].
    pose proof (next_ahead N E L s r p HA) as HN.
    destruct (ls_next pnext s) as [[c| |e] s1] eqn:EN; [| |easy].
    2:{ destruct HN as (-> & HA1 & _). rewrite firstn_nil, skipn_nil, app_nil_r. split; [easy|].
        replace (p + Z.min m (zlen []))%Z with p; [easy|]. unfold zlen; cbn; lia. }
    destruct HN as (r' & -> & HEc & HA1 & HL1 & HM).
    (* the bound on the number of further chunks *)
    assert (Hstep : exists M, ahead M E L s1 (r', (p + zlen c)%Z) /\ M <= N /\ M + 2 <= fuel).
    { destruct (ls_left s) as [|x l] eqn:El.
      - destruct N as [|N].
        + exfalso. inversion HA as [s0 pr cs q Hp Hy Hn HEx HLx HQx]; subst.
          destruct cs; [|cbn in Hn; lia]. inversion Hy as [p0 q0 H1 H2|p0 q0 e H1|p0 c0 p' cs' e q0 H1 H2]; subst.
          unfold ls_next in EN. rewrite El, Hp, H1 in EN. discriminate.
        + exists N. repeat split; [now apply HM|lia|lia].
      - exists N. repeat split; [easy|lia|lia]. }
    destruct Hstep as (M & HAM & HMN & HMf).
    pose proof (unget_ahead M E L (skipn (Z.to_nat m) c) s1 _ _ HAM) as HU.
    destruct (ls_unget (skipn (Z.to_nat m) c) s1) as [[u|e] s2] eqn:EU; [|easy].
    destruct (Nat.le_gt_cases (length c) (Z.to_nat m)) as [Hc|Hc].
    - (* whole chunk consumed *)
      rewrite (firstn_all2 c) by lia. rewrite (skipn_all2 c) in HU, EU by lia.
      cbn in EU. injection EU as _ ->. cbn [app] in HU.
      specialize (IH (m - zlen c)%Z M s2 r' (p + zlen c)%Z (out ++ c)).
      replace (p + zlen c - zlen [])%Z with (p + zlen c)%Z in HU by (unfold zlen; cbn; lia).
      specialize (IH HU).
      assert (Hl2 : ls_left s2 = []) by (pose proof (unget_cases [] s2); easy).
      rewrite Hl2 in IH. cbn in IH. specialize (IH ltac:(lia)).
      unfold zlen in IH. specialize (IH ltac:(lia)).
      unfold zlen.
      destruct (ls_read_loop pnext fuel (m - Z.of_nat (length c))%Z (out ++ c) s2) as [[b|e] s3].
      + destruct IH as [-> HA3]. split.
        * rewrite firstn_app, (firstn_all2 c) by lia. rewrite <- app_assoc. do 3 f_equal. lia.
        * rewrite skipn_app, (skipn_all2 c) by lia. cbn [app].
          replace (Z.to_nat m - length c) with (Z.to_nat (m - Z.of_nat (length c))) by lia.
          rewrite app_length.
          replace (p + Z.min m (Z.of_nat (length c + length r')))%Z
            with (p + Z.of_nat (length c) + Z.min (m - Z.of_nat (length c)) (Z.of_nat (length r')))%Z by lia.
          now apply (ahead_mono M).
      + easy.
    - (* part of the chunk is pushed back; the loop stops *)
      destruct fuel as [|fuel]; [lia|]. cbn [ls_read_loop].
      replace (m - zlen (firstn (Z.to_nat m) c))%Z with 0%Z
        by (unfold zlen; rewrite firstn_length; lia).
      rewrite Z.eqb_refl. split.
      + rewrite firstn_app. replace (Z.to_nat m - length c) with 0 by lia.
        cbn [firstn]. now rewrite app_nil_r.
      + rewrite skipn_app. replace (Z.to_nat m - length c) with 0 by lia. cbn [skipn].
        unfold zlen in *. rewrite app_length. rewrite skipn_length in HU.
        replace (p + Z.min m (Z.of_nat (length c + length r')))%Z
          with (p + Z.of_nat (length c) - Z.of_nat (length c - Z.to_nat m))%Z by lia.
        now apply (ahead_mono M).
  Qed.

  Lemma join_ahead E : forall fuel N s r p out, ahead N E None s (r, p) ->
    (match ls_left s with [] => 0 | _ => 1 end) + N + 1 <= fuel ->
    match ls_join pnext fuel out s with
    | (Ok b, s') => b = out ++ r /\ ahead N E None s' ([], (p + zlen r)%Z)
    | (Err e, s') => False
    end.
  Proof.
    induction fuel as [|fuel IH]; intros N s r p out HA Hf; [lia|].
    cbn [ls_join]. pose proof (next_ahead N E None s r p HA) as HN.
    destruct (ls_next pnext s) as [[c| |e] s1] eqn:EN; [| |easy].
    2:{ destruct HN as (-> & HA1 & _). rewrite app_nil_r. split; [easy|].
        replace (p + zlen [])%Z with p; [easy|]. unfold zlen; cbn; lia. }
    destruct HN as (r' & -> & HEc & HA1 & HL1 & HM).
    assert (Hstep : exists M, ahead M E None s1 (r', (p + zlen c)%Z) /\ M <= N /\ M + 1 <= fuel).
    { destruct (ls_left s) as [|x l] eqn:El.
      - destruct N as [|N].
        + exfalso. inversion HA as [s0 pr cs q Hp Hy Hn HEx HLx HQx]; subst.
          destruct cs; [|cbn in Hn; lia]. inversion Hy as [p0 q0 H1 H2|p0 q0 e H1|p0 c0 p' cs' e q0 H1 H2]; subst.
          unfold ls_next in EN. rewrite El, Hp, H1 in EN. discriminate.
        + exists N. repeat split; [now apply HM|lia|lia].
      - exists N. repeat split; [easy|lia|lia]. }
    destruct Hstep as (M & HAM & HMN & HMf).
    specialize (IH M s1 r' (p + zlen c)%Z (out ++ c) HAM). rewrite HL1 in IH.
    specialize (IH ltac:(lia)).
    destruct (ls_join pnext fuel (out ++ c) s1) as [[b|e] s3]; [|easy].
    destruct IH as [-> HA3]. split; [now rewrite app_assoc|].
    unfold zlen in *. rewrite app_length.
    replace (p + Z.of_nat (length c + length r'))%Z
      with (p + Z.of_nat (length c) + Z.of_nat (length r'))%Z by lia.
    now apply (ahead_mono M).
  Qed.

  Lemma do_op_ahead N E L fuel o s c : ahead N E L s c -> N + 3 <= fuel ->
    match do_op fuel o s with
    | (RExn SuspiciousMultipartForm, _) => True
    | (r, s') => exists c', cur_step E L c o r c' /\ ahead N E L s' c'
    end.
  Proof.
    intros HA Hf. destruct c as [r p].
    assert (HL : ls_remaining s = L) by now inversion HA.
    destruct o as [n| |b|]; cbn [do_op].
    - unfold ls_read. rewrite HL.
      destruct (match n with Some _ => n | None => L end) as [m|] eqn:Em.
      + replace (match n with Some n0 => Some n0 | None => L end) with (Some m) by (destruct n; easy).
        destruct (Z.ltb_spec m 0) as [Hneg|Hpos].
        * destruct fuel as [|fuel]; [lia|]. cbn [ls_read_loop].
          destruct (Z.eqb_spec m 0); [lia|]. destruct (Z.ltb_spec m 0); [|lia].
          exists (r, p). split; [eapply cs_read_neg; eassumption|easy].
        * pose proof (read_loop_ahead E L fuel m N s r p [] HA) as H.
          specialize (H ltac:(destruct (ls_left s); lia) Hpos).
          destruct (ls_read_loop pnext fuel m [] s) as [[b|e] s'].
          -- destruct H as [-> H]. eexists. split; [|exact H]. cbn [app]. eapply cs_read; eassumption.
          -- now rewrite H.
      + replace (match n with Some n0 => Some n0 | None => L end) with (@None Z) by (destruct n; easy).
        destruct n as [n|]; [easy|]. subst L.
        rewrite Em in HA.
        pose proof (join_ahead E fuel N s r p [] HA) as H.
        specialize (H ltac:(destruct (ls_left s); lia)).
        destruct (ls_join pnext fuel [] s) as [[b|e] s'].
        * destruct H as [-> H]. eexists. rewrite Em. split; [|exact H]. cbn [app]. now constructor.
        * easy.
    - pose proof (next_ahead N E L s r p HA) as H.
      destruct (ls_next pnext s) as [[c| |e] s']; cbn [lift_nxt].
      + destruct H as (r' & -> & HE & HA' & _). eexists. split; [|exact HA']. now constructor.
      + destruct H as (-> & HA' & _). eexists. split; [|exact HA']. constructor.
      + easy.
    - pose proof (unget_ahead N E L b s r p HA) as H.
      destruct (ls_unget b s) as [[u|e] s'].
      + eexists. split; [|exact H]. constructor.
      + destruct H as [-> _]. easy.
    - exists (r, p). split; [|easy]. inversion HA; subst. constructor.
  Qed.

  Theorem stream_is_cursor (p : P) cs q : yields pnext p cs None q ->
    forall L ops fuel, length cs + 3 <= fuel ->
    exists pre fin,
      cur_run (In [] cs) L (concat cs, 0%Z) (firstn (length pre) ops) pre fin /\
      (fst (run_until fuel ops (ls_init p L)) = pre /\ length pre = length ops \/
       fst (run_until fuel ops (ls_init p L)) = pre ++ [RExn SuspiciousMultipartForm]
         /\ length pre < length ops).
  Proof.
    intros Hy L ops fuel Hf.
    assert (HA : ahead (length cs) (In [] cs) L (ls_init p L) (concat cs, 0%Z)).
    { eapply ahead_intro'; try reflexivity; try eassumption; easy. }
    revert HA. generalize (ls_init p L) (concat cs, 0%Z). intros s c HA.
    revert s c HA. induction ops as [|o ops IH]; intros s c HA.
    - exists [], c. split; [constructor|]. now left.
    - cbn [run_until].
      pose proof (do_op_ahead (length cs) (In [] cs) L fuel o s c HA Hf) as H.
      destruct (do_op fuel o s) as [r s1].
      assert (Hd : (r = RExn SuspiciousMultipartForm) \/
               ((exists c', cur_step (In [] cs) L c o r c' /\ ahead (length cs) (In [] cs) L s1 c') /\
                (let (rs, s2) := run_until fuel ops s1 in (r :: rs, s2)) =
                match r with RExn SuspiciousMultipartForm => ([RExn SuspiciousMultipartForm], s1)
                        | _ => (let (rs, s2) := run_until fuel ops s1 in (r :: rs, s2)) end)).
      { destruct r as [| | | |e]; try (right; split; [exact H|reflexivity]).
        destruct e; try (right; split; [exact H|reflexivity]). now left. }
      destruct Hd as [->|[(c' & Hst & HA') Heq]].
      + exists [], c. cbn. split; [constructor|]. right. split; [easy|lia].
      + rewrite <- Heq. clear Heq.
        destruct (IH s1 c' HA') as (pre & fin & Hrun & Hres).
        exists (r :: pre), fin. cbn [length firstn].
        destruct (run_until fuel ops s1) as [rs s2]. cbn [fst] in *.
        split; [econstructor; eassumption|].
        destruct Hres as [[-> Hlen]|[-> Hlen]]; [left|right]; (split; [easy|cbn; lia]).
  Qed.

  (** *** The guard on primitive operations *)
  Definition prim (o : sop) : Prop := match o with ORead _ => False | _ => True end.

  Definition ghost_ok (s : LS) (g : ghost) : Prop :=
    length (ls_left s) = g_buf g /\ ls_hist s = firstn 50 (g_push g).

  Lemma firstn_cons_49 n (l : list nat) : n :: firstn 49 (firstn 50 l) = firstn 50 (n :: l).
  Proof. rewrite firstn_firstn. reflexivity. Qed.

  (** producers do not themselves raise the guard exception *)
  Definition quiet := forall p, fst (pnext p) <> Raise SuspiciousMultipartForm.

  Lemma guarded_run (HQ : quiet) fuel ops : Forall prim ops -> forall s g, ghost_ok s g ->
    guarded g ops (fst (run_ops fuel ops s)).
  Proof.
    induction 1 as [|o ops Ho Hops IH]; intros s g [Hb Hh]; [constructor|].
    cbn [run_ops]. destruct (do_op fuel o s) as [r s1] eqn:Ed.
    destruct (run_ops fuel ops s1) as [rs s2] eqn:Er. cbn [fst].
    assert (Hrs : rs = fst (run_ops fuel ops s1)) by now rewrite Er.
    destruct o as [n| |b|]; [easy| | |].
    - cbn [do_op] in Ed. unfold ls_next in Ed.
      destruct (ls_left s) as [|x l] eqn:El.
      + destruct (ls_prod s) as [p|].
        * pose proof (HQ p) as HQp.
          destruct (pnext p) as [[c| |e] p']; injection Ed as <- <-; cbn [lift_nxt fst] in *.
          -- constructor; [easy|easy|]. rewrite Hrs. apply IH. cbn [ghost_step]. cbn in Hb. rewrite <- Hb.
             cbn. now split.
          -- constructor; [easy|easy|]. rewrite Hrs. apply IH. cbn [ghost_step]. cbn. now split.
          -- constructor; [easy|congruence|]. rewrite Hrs. apply IH. cbn [ghost_step]. cbn. now split.
        * injection Ed as <- <-. constructor; [easy|easy|]. rewrite Hrs. apply IH.
          cbn [ghost_step]. split; [|easy]. now rewrite El.
      + injection Ed as <- <-. constructor; [easy|easy|]. rewrite Hrs. apply IH.
        cbn [ghost_step]. rewrite <- Hb. cbn. now split.
    - cbn [do_op] in Ed. destruct b as [|x b].
      { cbn in Ed. injection Ed as <- <-. apply gd_unget; [right; split; [easy|now left]|].
        rewrite Hrs. apply IH. cbn. now split. }
      unfold ls_unget in Ed. rewrite Hh, firstn_cons_49 in Ed.
      destruct (Nat.ltb_spec 40 (count_occ Nat.eq_dec (firstn 50 (length (x :: b) :: g_push g)) (length (x :: b)))) as [Hst|Hst];
        injection Ed as <- <-.
      + apply gd_unget; [left; repeat split; [easy|exact Hst]|].
        rewrite Hrs. apply IH. now split.
      + apply gd_unget; [right; split; [easy|right]|].
        * unfold stuck. lia.
        * rewrite Hrs. apply IH. split; [|easy]. cbn [ls_left ghost_step g_buf].
          change ((x :: b) ++ ls_left s) with (x :: b ++ ls_left s).
          cbn [length]. rewrite app_length. now rewrite Hb.
    - injection Ed as <- <-. constructor; [easy|easy|]. rewrite Hrs. apply IH. now split.
  Qed.

  (** a read is a sequence of primitive operations *)
  Lemma read_loop_prims fuel : forall n m out (s : LS),
    exists ops, Forall prim ops /\
      snd (run_ops fuel ops s) = snd (ls_read_loop pnext n m out s) /\
      (fst (ls_read_loop pnext n m out s) = Err SuspiciousMultipartForm ->
       exists rs, fst (run_ops fuel ops s) = rs ++ [RExn SuspiciousMultipartForm]).
  Proof.
    induction n as [|n IH]; intros m out s.
    - exists []. cbn. repeat split; [constructor|discriminate].
    - cbn [ls_read_loop]. destruct (Z.eqb m 0); [exists []; cbn; repeat split; [constructor|discriminate]|].
      destruct (Z.ltb m 0); [exists []; cbn; repeat split; [constructor|discriminate]|].
      destruct (ls_next pnext s) as [[c| |e] s1] eqn:EN.
      + destruct (ls_unget (skipn (Z.to_nat m) c) s1) as [[u|e] s2] eqn:EU.
        * destruct (IH (m - zlen (firstn (Z.to_nat m) c))%Z (out ++ firstn (Z.to_nat m) c) s2)
            as (ops & H1 & H2 & H3).
          exists (ONext :: OUnget (skipn (Z.to_nat m) c) :: ops).
          cbn [run_ops do_op]. rewrite EN, EU. destruct (run_ops fuel ops s2) as [rs s3].
          cbn [fst snd] in *. repeat split.
          -- repeat constructor. easy.
          -- easy.
          -- intros H. destruct (H3 H) as [rs' ->]. now exists (RBytes c :: RUnit :: rs').
        * exists [ONext; OUnget (skipn (Z.to_nat m) c)]. cbn [run_ops do_op]. rewrite EN, EU. cbn.
          repeat split; [repeat constructor|]. intros [= ->]. now exists [RBytes c].
      + exists [ONext]. cbn [run_ops do_op]. rewrite EN. cbn. repeat split; [repeat constructor|discriminate].
      + exists [ONext]. cbn [run_ops do_op]. rewrite EN. cbn. repeat split; [repeat constructor|].
        intros [= ->]. now exists [].
  Qed.

  (** *** Reading alone never trips the guard *)
  Definition reading (o : sop) : Prop := match o with OUnget _ => False | _ => True end.
  Definition calm (s : LS) : Prop :=
    NoDup (ls_hist s) /\ Forall (fun h => length (ls_left s) <= h) (ls_hist s).

  Lemma NoDup_count_le1 l (n : nat) : NoDup l -> count_occ Nat.eq_dec l n <= 1.
  Proof. intros H. now apply NoDup_count_occ. Qed.
  Lemma NoDup_firstn {A} k (l : list A) : NoDup l -> NoDup (firstn k l).
  Proof.
    revert l; induction k as [|k IH]; intros [|x l] H; cbn; try constructor.
    - inversion_clear H as [|? ? H1 H2]. intros Hin. apply H1.
      rewrite <- (firstn_skipn k l). apply in_or_app. now left.
    - inversion_clear H. now apply IH.
  Qed.
  Lemma Forall_firstn {A} (Q : A -> Prop) k l : Forall Q l -> Forall Q (firstn k l).
  Proof. rewrite !Forall_forall. intros H x Hx. apply H. rewrite <- (firstn_skipn k l). apply in_or_app. now left. Qed.

  (** after [next], all recorded pushbacks are at least as long as the chunk *)
  Lemma calm_next s : calm s ->
    match ls_next pnext s with
    | (Chunk c, s') => calm s' /\ ls_left s' = [] /\ Forall (fun h => length c <= h) (ls_hist s')
    | (_, s') => calm s'
    end.
  Proof.
    intros [H1 H2]. unfold ls_next. destruct (ls_left s) as [|x l] eqn:El.
    - destruct (ls_prod s) as [p|].
      + destruct (pnext p) as [[c| |e] p']; cbn; repeat split; cbn; try easy; try constructor.
      + split; [easy|]. now rewrite El.
    - cbn. repeat split; cbn; try easy. apply Forall_forall. intros; lia.
  Qed.
  Lemma calm_pushback c k s : calm s -> ls_left s = [] -> Forall (fun h => length c <= h) (ls_hist s) ->
    0 < k -> match ls_unget (skipn k c) s with
             | (Ok _, s') => calm s'
             | (Err _, _) => False
             end.
  Proof.
    intros [H1 _] HL H3 Hk. destruct (skipn k c) as [|x l] eqn:E.
    - cbn. split; [easy|]. apply Forall_forall. rewrite HL. cbn. lia.
    - assert (Hlt : length (x :: l) < length c).
      { rewrite <- E, skipn_length. assert (length (skipn k c) = length (x :: l)) by now rewrite E.
        rewrite skipn_length in H. cbn in H. lia. }
      unfold ls_unget.
      assert (Hnd : NoDup (length (x :: l) :: firstn 49 (ls_hist s))).
      { constructor; [|now apply NoDup_firstn]. intros Hin.
        apply (Forall_firstn _ 49) in H3. rewrite Forall_forall in H3. specialize (H3 _ Hin). lia. }
      pose proof (NoDup_count_le1 _ (length (x :: l)) Hnd).
      destruct (Nat.ltb_spec 40 (count_occ Nat.eq_dec (length (x :: l) :: firstn 49 (ls_hist s)) (length (x :: l)))); [lia|].
      split; [easy|]. cbn [ls_left ls_hist]. rewrite HL, app_nil_r. constructor; [lia|].
      apply Forall_firstn. eapply Forall_impl; [|exact H3]. cbn. intros; cbn in *; lia.
  Qed.

  Lemma calm_read_loop (HQ : quiet) : forall fuel m out s, calm s ->
    calm (snd (ls_read_loop pnext fuel m out s)) /\
    fst (ls_read_loop pnext fuel m out s) <> Err SuspiciousMultipartForm.
  Proof.
    induction fuel as [|fuel IH]; intros m out s HC; [now cbn|].
    cbn [ls_read_loop]. destruct (Z.eqb_spec m 0); [now cbn|]. destruct (Z.ltb_spec m 0); [now cbn|].
    pose proof (calm_next s HC) as HN. pose proof HQ as HQ'.
    destruct (ls_next pnext s) as [[c| |e] s1] eqn:EN.
    - destruct HN as (HC1 & HL & HF).
      pose proof (calm_pushback c (Z.to_nat m) s1 HC1 HL HF ltac:(lia)) as HU.
      destruct (ls_unget (skipn (Z.to_nat m) c) s1) as [[u|e] s2]; [|easy].
      now apply IH.
    - now cbn.
    - cbn. split; [easy|]. intros [= ->]. unfold ls_next in EN.
      destruct (ls_left s); [|discriminate]. destruct (ls_prod s) as [p|]; [|discriminate].
      specialize (HQ p). destruct (pnext p) as [[c| |e] p']; injection EN; intros; subst; cbn in HQ; congruence.
  Qed.
  Lemma calm_join (HQ : quiet) : forall fuel out s, calm s ->
    calm (snd (ls_join pnext fuel out s)) /\
    fst (ls_join pnext fuel out s) <> Err SuspiciousMultipartForm.
  Proof.
    induction fuel as [|fuel IH]; intros out s HC; [now cbn|].
    cbn [ls_join]. pose proof (calm_next s HC) as HN.
    destruct (ls_next pnext s) as [[c| |e] s1] eqn:EN.
    - destruct HN as (HC1 & HL & HF). now apply IH.
    - now cbn.
    - cbn. split; [easy|]. intros [= ->]. unfold ls_next in EN.
      destruct (ls_left s); [|discriminate]. destruct (ls_prod s) as [p|]; [|discriminate].
      specialize (HQ p). destruct (pnext p) as [[c| |e] p']; injection EN; intros; subst; cbn in HQ; congruence.
  Qed.

  Theorem reading_never_stuck (HQ : quiet) fuel ops : Forall reading ops -> forall s, calm s ->
    ~ In (RExn SuspiciousMultipartForm) (fst (run_ops fuel ops s)).
  Proof.
    induction 1 as [|o ops Ho Hops IH]; intros s HC; [easy|].
    cbn [run_ops]. destruct (do_op fuel o s) as [r s1] eqn:Ed.
    assert (calm s1 /\ r <> RExn SuspiciousMultipartForm) as [HC1 Hr].
    { destruct o as [n| |b|]; [| |easy|]; cbn [do_op] in Ed.
      - unfold ls_read in Ed. destruct (match n with None => ls_remaining s | Some n0 => Some n0 end) as [m|].
        + destruct (calm_read_loop HQ fuel m [] s HC) as [H1 H2].
          destruct (ls_read_loop pnext fuel m [] s) as [[b|e] s']; injection Ed as <- <-; cbn in *; [easy|].
          split; [easy|]. congruence.
        + destruct (calm_join HQ fuel [] s HC) as [H1 H2].
          destruct (ls_join pnext fuel [] s) as [[b|e] s']; injection Ed as <- <-; cbn in *; [easy|].
          split; [easy|]. congruence.
      - pose proof (calm_next s HC) as HN. destruct (ls_next pnext s) as [[c| |e] s'] eqn:EN;
          injection Ed as <- <-; cbn; [easy|easy|]. split; [easy|]. intros [= ->]. unfold ls_next in EN.
        destruct (ls_left s); [|discriminate]. destruct (ls_prod s) as [p|]; [|discriminate].
        specialize (HQ p). destruct (pnext p) as [[c| |e] p']; injection EN; intros; subst; cbn in HQ; congruence.
      - injection Ed as <- <-. easy. }
    specialize (IH s1 HC1). destruct (run_ops fuel ops s1) as [rs s2]. cbn [fst] in *.
    intros [H|H]; easy.
  Qed.

  (** *** close() *)
  Lemma closed_read_within (s : LS) n fuel : 0 < n -> n <= length (ls_left s) -> calm s -> 2 <= fuel ->
    fst (ls_read pnext fuel (Some (Z.of_nat n)) (ls_close s)) = Ok (firstn n (ls_left s)).
  Proof.
    intros Hn Hl [HC1 HC2] Hf. unfold ls_read. destruct fuel as [|[|fuel]]; [lia|lia|].
    cbn [ls_read_loop]. destruct (Z.eqb_spec (Z.of_nat n) 0); [lia|].
    destruct (Z.ltb_spec (Z.of_nat n) 0); [lia|]. unfold ls_next. cbn [ls_left ls_close].
    destruct (ls_left s) as [|x l] eqn:El; [cbn in Hl; lia|].
    rewrite Nat2Z.id.
    set (s1 := mkLS _ _ _ _ _).
    pose proof (calm_pushback (x :: l) n s1) as HU.
    specialize (HU ltac:(split; cbn; [easy|apply Forall_forall; intros; lia]) eq_refl HC2 Hn).
    destruct (ls_unget (skipn n (x :: l)) s1) as [[u|e] s2]; [|easy].
    replace (Z.of_nat n - zlen (firstn n (x :: l)))%Z with 0%Z by (unfold zlen; rewrite firstn_length; lia).
    now rewrite Z.eqb_refl.
  Qed.
  Lemma closed_read_beyond (s : LS) n fuel : length (ls_left s) < n -> 3 <= fuel ->
    fst (ls_read pnext fuel (Some (Z.of_nat n)) (ls_close s)) = Err TypeError /\
    fst (ls_read pnext fuel None (ls_close s)) = Err TypeError \/ ls_remaining s <> None.
  Proof.
    intros Hl Hf. destruct (ls_remaining s) as [|] eqn:ER; [right; easy|left].
    destruct fuel as [|[|[|fuel]]]; try lia. unfold ls_read. cbn [ls_remaining ls_close]. rewrite ER.
    split.
    - cbn [ls_read_loop]. destruct (Z.eqb_spec (Z.of_nat n) 0); [lia|].
      destruct (Z.ltb_spec (Z.of_nat n) 0); [lia|]. unfold ls_next at 1. cbn [ls_left ls_close ls_prod].
      destruct (ls_left s) as [|x l] eqn:El; [easy|].
      rewrite Nat2Z.id. rewrite skipn_all2 by lia. rewrite firstn_all2 by lia. cbn [ls_unget].
      destruct (Z.eqb_spec (Z.of_nat n - zlen (x :: l)) 0) as [H3|H3]; [unfold zlen in H3; lia|].
      destruct (Z.ltb_spec (Z.of_nat n - zlen (x :: l)) 0) as [H'|H']; [unfold zlen in H'; lia|].
      now unfold ls_next.
    - cbn [ls_join]. unfold ls_next at 1. cbn [ls_left ls_close ls_prod].
      destruct (ls_left s) as [|x l] eqn:El; [easy|]. now unfold ls_next.
  Qed.
End Run.

(** ** ChunkIter *)
(** the bytes a source delivers before its first failure, and that failure *)
Fixpoint src_bytes (s : src) : str :=
  match s with SData d :: r => d ++ src_bytes r | _ => [] end.
Fixpoint src_error (s : src) : option exn :=
  match s with [] => None | SData _ :: r => src_error r | SFail e :: _ => Some e end.

Fixpoint src_len (s : src) : nat :=
  match s with [] => 0 | SData d :: r => S (length d + src_len r) | SFail _ :: r => S (src_len r) end.

Lemma src_read_spec n s : 0 < n ->
  match src_read n s with
  | (Ok [], s') => src_bytes s = [] /\ src_error s = None /\ s' = []
  | (Ok d, s') => src_bytes s = d ++ src_bytes s' /\ src_error s = src_error s' /\
                  length d <= n /\ src_len s' < src_len s
  | (Err e, s') => src_bytes s = [] /\ src_error s = Some e
  end.
Proof.
  intros Hn. induction s as [|[d|e] s IH]; cbn [src_read].
  - easy.
  - destruct d as [|x d].
    + destruct (src_read n s) as [[b|e] s']; [|easy].
      destruct b as [|y b]; [easy|]. cbn in *. intuition lia.
    + destruct n as [|n]; [lia|]. cbn [firstn skipn]. cbn [src_bytes src_error].
      destruct (skipn n d) as [|y t] eqn:E.
      * repeat split.
        -- cbn. f_equal. rewrite <- (firstn_skipn n d) at 1. now rewrite E, app_nil_r.
        -- cbn. rewrite firstn_length. lia.
        -- cbn. lia.
      * repeat split.
        -- cbn [src_bytes]. cbn. f_equal. rewrite <- (firstn_skipn n d) at 1. rewrite E. now rewrite <- app_assoc.
        -- cbn. rewrite firstn_length. lia.
        -- cbn [src_len]. rewrite <- E, skipn_length. cbn. lia.
  - cbn. easy.
Qed.

Theorem chunkiter_yields s n : 0 < n -> src_error s <> Some InputStreamExhausted ->
  exists cs q, yields (ci_next src_read) (mkCI s n) cs (src_error s) q /\
    concat cs = src_bytes s /\ Forall (fun c => 1 <= length c <= n) cs.
Proof.
  intros Hn. remember (src_len s) as k eqn:Hk. revert s Hk.
  induction k as [k IH] using lt_wf_ind. intros s -> Hex.
  pose proof (src_read_spec n s Hn) as H.
  destruct (src_read n s) as [[d|e] s'] eqn:E.
  - destruct d as [|x d].
    + destruct H as (H1 & H2 & ->). exists [], (mkCI [] n). rewrite H1, H2.
      repeat split; [|constructor]. apply y_stop; unfold ci_next; cbn [ci_flo ci_size]; [now rewrite E|easy].
    + destruct H as (H1 & H2 & H3 & H4). rewrite H2 in Hex.
      destruct (IH _ H4 s' eq_refl Hex) as (cs & q & Hy & Hc & HF).
      exists ((x :: d) :: cs), q. rewrite H1, H2. repeat split.
      * eapply y_chunk; [|exact Hy]. unfold ci_next; cbn [ci_flo ci_size]. now rewrite E.
      * cbn. now rewrite Hc.
      * constructor; [|easy]. cbn in *. lia.
  - destruct H as (H1 & H2). exists [], (mkCI s' n). rewrite H1, H2.
    repeat split; [|constructor]. apply y_fail. unfold ci_next; cbn [ci_flo ci_size]. rewrite E.
    destruct e; try easy.
Qed.
