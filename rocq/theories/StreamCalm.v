(** * LazyStream as remaining content, with a bound on how near the guard is.
    [sat N k s r]: the stream [s] still delivers exactly [r]; its producer yields
    at most [N] more chunks; no pushback size was recorded more than [k] times. *)
From Verif Require Import Py Spec PyFacts StreamModel StreamSpec StreamFacts.

Section Calm.
  Context {P : Type} (pnext : P -> nxt * P).
  Notation LS := (lstream P).
  Notation cnt h n := (count_occ Nat.eq_dec h n).

  Definition calmk (k : nat) (s : LS) : Prop :=
    (forall n, cnt (ls_hist s) n <= k) /\
    (forall n, n < length (ls_left s) -> cnt (ls_hist s) n <= k - 1).

  Lemma cnt_firstn j h n : cnt (firstn j h) n <= cnt h n.
  Proof. rewrite <- (firstn_skipn j h) at 2. rewrite count_occ_app. lia. Qed.

  Lemma calmk_mono k k' s : k <= k' -> calmk k s -> calmk k' s.
  Proof. intros H [H1 H2]. split; intros n; [specialize (H1 n); lia|]. intros Hn. specialize (H2 n Hn). lia. Qed.

  Lemma calmk_init p L k : calmk k (ls_init p L).
  Proof. split; intros; cbn; lia. Qed.

  Lemma calmk_next k s : calmk k s ->
    match ls_next pnext s with
    | (Chunk c, s') => calmk k s' /\ ls_left s' = [] /\ forall n, n < length c -> cnt (ls_hist s') n <= k - 1
    | (_, s') => calmk k s'
    end.
  Proof.
    intros [H1 H2]. unfold ls_next. destruct (ls_left s) as [|x l] eqn:El.
    - destruct (ls_prod s) as [p|].
      + destruct (pnext p) as [[c| |e] p']; cbn; repeat split; cbn; intros; try lia; auto.
      + split; [easy|]. rewrite El. easy.
    - cbn. repeat split; cbn; intros; try lia; auto.
  Qed.

  Lemma calmk_pushback c j k s : calmk k s -> 1 <= k <= 40 -> ls_left s = [] ->
    (forall n, n < length c -> cnt (ls_hist s) n <= k - 1) -> 0 < j ->
    match ls_unget (skipn j c) s with
    | (Ok _, s') => calmk k s'
    | (Err _, _) => False
    end.
  Proof.
    intros [H1 H2] Hk HL Hc Hj. destruct (skipn j c) as [|x l] eqn:E.
    - cbn. split; [easy|]. rewrite HL. cbn. lia.
    - assert (Hlt : length (x :: l) < length c).
      { assert (length (skipn j c) = length (x :: l)) by now rewrite E.
        rewrite skipn_length in H. cbn in *. lia. }
      unfold ls_unget. pose proof (Hc _ Hlt) as Hcl.
      pose proof (cnt_firstn 49 (ls_hist s) (length (x :: l))) as Hf.
      assert (Heq : cnt (length (x :: l) :: firstn 49 (ls_hist s)) (length (x :: l))
                    = S (cnt (firstn 49 (ls_hist s)) (length (x :: l)))).
      { cbn [count_occ]. now destruct (Nat.eq_dec (length (x :: l)) (length (x :: l))). }
      rewrite Heq.
      destruct (Nat.ltb_spec 40 (S (cnt (firstn 49 (ls_hist s)) (length (x :: l))))); [lia|].
      split; cbn [ls_hist ls_left]; intros n.
      + destruct (Nat.eq_dec (length (x :: l)) n) as [<-|Hne]; [rewrite Heq; lia|].
        cbn [count_occ]. destruct (Nat.eq_dec (length (x :: l)) n); [easy|].
        pose proof (cnt_firstn 49 (ls_hist s) n). specialize (H1 n). lia.
      + rewrite HL, app_nil_r. intros Hn. cbn [count_occ].
        destruct (Nat.eq_dec (length (x :: l)) n) as [He|Hne]; [lia|].
        pose proof (cnt_firstn 49 (ls_hist s) n). specialize (Hc n ltac:(lia)). lia.
  Qed.

  Lemma calmk_unget b k s : calmk k s -> k + 1 <= 40 ->
    match ls_unget b s with
    | (Ok _, s') => calmk (k + 2) s' /\ (ls_left s = [] -> 1 <= k -> calmk (k + 1) s')
    | (Err _, _) => False
    end.
  Proof.
    intros [H1 H2] Hk. destruct b as [|x b].
    - cbn. split; [|intros _ _]; apply (calmk_mono k); try lia; now split.
    - unfold ls_unget.
      pose proof (cnt_firstn 49 (ls_hist s) (length (x :: b))) as Hf.
      assert (Heq : cnt (length (x :: b) :: firstn 49 (ls_hist s)) (length (x :: b))
                    = S (cnt (firstn 49 (ls_hist s)) (length (x :: b)))).
      { cbn [count_occ]. now destruct (Nat.eq_dec (length (x :: b)) (length (x :: b))). }
      rewrite Heq. pose proof (H1 (length (x :: b))).
      destruct (Nat.ltb_spec 40 (S (cnt (firstn 49 (ls_hist s)) (length (x :: b))))); [lia|].
      assert (Hall : forall n, cnt (length (x :: b) :: firstn 49 (ls_hist s)) n <= k + 1).
      { intros n. destruct (Nat.eq_dec (length (x :: b)) n) as [<-|Hne]; [rewrite Heq; lia|].
        cbn [count_occ]. destruct (Nat.eq_dec (length (x :: b)) n); [easy|].
        pose proof (cnt_firstn 49 (ls_hist s) n). specialize (H1 n). lia. }
      split.
      + split; cbn [ls_hist ls_left]; intros n; [|intros _]; specialize (Hall n); lia.
      + intros HL Hk1. split; cbn [ls_hist ls_left]; intros n; [apply Hall|].
        rewrite HL, app_nil_r. intros Hn. cbn [count_occ].
        destruct (Nat.eq_dec (length (x :: b)) n) as [He|Hne]; [lia|].
        pose proof (cnt_firstn 49 (ls_hist s) n). specialize (H1 n). lia.
  Qed.

  Lemma calmk_read_loop k : 1 <= k <= 40 -> forall fuel m out s, calmk k s ->
    calmk k (snd (ls_read_loop pnext fuel m out s)).
  Proof.
    intros Hk. induction fuel as [|fuel IH]; intros m out s HC; [now cbn|].
    cbn [ls_read_loop]. destruct (Z.eqb_spec m 0); [now cbn|]. destruct (Z.ltb_spec m 0); [now cbn|].
    pose proof (calmk_next k s HC) as HN.
    destruct (ls_next pnext s) as [[c| |e] s1] eqn:EN; [|now cbn|now cbn].
    destruct HN as (HC1 & HL & HF).
    pose proof (calmk_pushback c (Z.to_nat m) k s1 HC1 Hk HL HF ltac:(lia)) as HU.
    destruct (ls_unget (skipn (Z.to_nat m) c) s1) as [[u|e] s2]; [|easy]. now apply IH.
  Qed.
  Lemma calmk_join k : forall fuel out s, calmk k s -> calmk k (snd (ls_join pnext fuel out s)).
  Proof.
    induction fuel as [|fuel IH]; intros out s HC; [now cbn|].
    cbn [ls_join]. pose proof (calmk_next k s HC) as HN.
    destruct (ls_next pnext s) as [[c| |e] s1] eqn:EN; [|now cbn|now cbn].
    apply IH. easy.
  Qed.
  Lemma calmk_read k fuel size s : 1 <= k <= 40 -> calmk k s -> calmk k (snd (ls_read pnext fuel size s)).
  Proof.
    intros Hk HC. unfold ls_read.
    destruct (match size with None => ls_remaining s | Some n => Some n end).
    - now apply calmk_read_loop.
    - now apply calmk_join.
  Qed.
  Lemma calmk_read_no_guard k : 1 <= k <= 40 -> forall fuel m out s, calmk k s ->
    (forall p, fst (pnext p) <> Raise SuspiciousMultipartForm) ->
    fst (ls_read_loop pnext fuel m out s) <> Err SuspiciousMultipartForm.
  Proof.
    intros Hk. induction fuel as [|fuel IH]; intros m out s HC HQ; [now cbn|].
    cbn [ls_read_loop]. destruct (Z.eqb_spec m 0); [now cbn|]. destruct (Z.ltb_spec m 0); [now cbn|].
    pose proof (calmk_next k s HC) as HN.
    destruct (ls_next pnext s) as [[c| |e] s1] eqn:EN.
    - destruct HN as (HC1 & HL & HF).
      pose proof (calmk_pushback c (Z.to_nat m) k s1 HC1 Hk HL HF ltac:(lia)) as HU.
      destruct (ls_unget (skipn (Z.to_nat m) c) s1) as [[u|e] s2]; [|easy]. now apply IH.
    - now cbn.
    - cbn. intros [= ->]. unfold ls_next in EN.
      destruct (ls_left s); [|discriminate]. destruct (ls_prod s) as [p|]; [|discriminate].
      specialize (HQ p). destruct (pnext p) as [[c| |e] p']; injection EN; intros; subst; cbn in HQ; congruence.
  Qed.

  (** ** Content *)
  Inductive sat (N k : nat) (s : LS) (r : str) : Prop :=
  | sat_intro p cs q : ls_prod s = Some p -> yields pnext p cs None q ->
      length cs <= N -> ls_remaining s = None -> r = ls_left s ++ concat cs -> calmk k s ->
      sat N k s r.

  Lemma sat_mono N N' k k' s r : N <= N' -> k <= k' -> sat N k s r -> sat N' k' s r.
  Proof.
    intros HN Hk [p cs q H1 H2 H3 H4 H5 H6]. econstructor; try eassumption; [lia|].
    now apply (calmk_mono k).
  Qed.

  Lemma yields_det p cs e q : yields pnext p cs e q -> forall cs' e' q', yields pnext p cs' e' q' ->
    cs = cs' /\ e = e' /\ q = q'.
  Proof.
    induction 1 as [p q H1 H2|p q e H1|p c p' cs e q H1 H2 IH]; intros cs' e' q' H';
      inversion H' as [p0 q0 G1 G2|p0 q0 e0 G1|p0 c0 p1 cs0 e0 q0 G1 G2]; subst; rewrite H1 in G1;
      try discriminate; injection G1; intros; subst; try easy.
    destruct (IH _ _ _ G2) as (-> & -> & ->). easy.
  Qed.

  Lemma sat_ahead N k s r : sat N k s r <->
    ahead pnext N True None s (r, ls_pos s) /\ calmk k s.
  Proof.
    split.
    - intros [p cs q H1 H2 H3 H4 H5 H6]. split; [|easy].
      eapply ahead_intro'; try eassumption; easy.
    - intros [HA HC]. inversion HA as [s0 p cs q H1 H2 H3 H4 H5 [H6 H7]]; subst.
      econstructor; try eassumption; easy.
  Qed.
  Lemma ahead_sat N k s r p : ahead pnext N True None s (r, p) -> calmk k s -> sat N k s r.
  Proof.
    intros HA HC. inversion HA as [s0 p0 cs q H1 H2 H3 H4 H5 [H6 H7]]; subst.
    econstructor; try eassumption; easy.
  Qed.

  Lemma sat_next N k s r : sat N k s r ->
    match ls_next pnext s with
    | (Chunk c, s') => exists r', r = c ++ r' /\ sat N k s' r' /\ ls_left s' = [] /\
         (forall n, n < length c -> cnt (ls_hist s') n <= k - 1) /\
         (ls_left s = [] -> exists M, N = S M /\ sat M k s' r')
    | (Stop, s') => r = [] /\ sat N k s' [] /\ ls_left s = [] /\ ls_left s' = []
    | (Raise _, _) => False
    end.
  Proof.
    intros HS. pose proof HS as [p cs q H1 H2 H3 H4 H5 H6].
    pose proof (calmk_next k s H6) as HC.
    unfold ls_next in *. destruct (ls_left s) as [|x l] eqn:El.
    - rewrite H1 in *. inversion H2 as [p0 q0 G1 G2|p0 q0 e0 G1|p0 c0 p1 cs0 e0 q0 G1 G2]; subst.
      + rewrite G1 in *. cbn. repeat split; try easy.
        apply (sat_intro _ _ _ _ q [] q); cbn; try reflexivity; try easy.
        eapply y_stop; eassumption.
      + rewrite G1 in *. destruct HC as (HC1 & HC2 & HC3). exists (concat cs0). repeat split; try easy.
        * econstructor; cbn; try reflexivity; try eassumption. cbn in H3. lia.
        * intros _. destruct N as [|M]; [cbn in H3; lia|]. exists M. split; [easy|].
          econstructor; cbn; try reflexivity; try eassumption. cbn in H3. lia.
    - destruct HC as (HC1 & HC2 & HC3). exists (concat cs). repeat split; try easy.
      econstructor; cbn; try reflexivity; try eassumption; easy.
  Qed.

  Lemma sat_unget N k b s r : sat N k s r -> k + 1 <= 40 ->
    exists s', ls_unget b s = (Ok tt, s') /\ sat N (k + 2) s' (b ++ r) /\
      (ls_left s = [] -> 1 <= k -> sat N (k + 1) s' (b ++ r)) /\ ls_left s' = b ++ ls_left s.
  Proof.
    intros [p cs q H1 H2 H3 H4 H5 H6] Hk.
    pose proof (calmk_unget b k s H6 Hk) as HC. pose proof (unget_cases b s) as HU.
    destruct (ls_unget b s) as [[[]|e] s']; [|easy]. exists s'.
    destruct HC as [HC1 HC2]. destruct HU as (U1 & U2 & U3 & U4).
    assert (Hr : b ++ r = ls_left s' ++ concat cs) by (subst r; rewrite U2; now rewrite app_assoc).
    repeat split; try easy; [|intros HL Hk1]; (econstructor; [rewrite U1; eassumption|eassumption|easy|
      now rewrite U4|exact Hr|auto]).
  Qed.

  Lemma sat_read N k s r fuel n : sat N k s r -> 1 <= k <= 40 -> N + 3 <= fuel ->
    exists s', ls_read pnext fuel (Some (Z.of_nat n)) s = (Ok (firstn n r), s') /\
               sat N k s' (skipn n r).
  Proof.
    intros HS Hk Hf. apply sat_ahead in HS as [HA HC].
    unfold ls_read. pose proof (calmk_read_loop k Hk fuel (Z.of_nat n) [] s HC) as HC'.
    pose proof (read_loop_ahead pnext True None fuel (Z.of_nat n) N s r (ls_pos s) [] HA) as HR.
    specialize (HR ltac:(destruct (ls_left s); lia) ltac:(lia)).
    assert (HQ : fst (ls_read_loop pnext fuel (Z.of_nat n) [] s) <> Err SuspiciousMultipartForm).
    { clear HR HC'.
      (* the producer never raises: it yields its chunks and stops *)
      assert (G : forall fuel m out N s r p, ahead pnext N True None s (r, p) -> calmk k s ->
                  fst (ls_read_loop pnext fuel m out s) <> Err SuspiciousMultipartForm).
      { clear -Hk. induction fuel as [|fuel IH]; intros m out N s r p HA HC; [now cbn|].
        cbn [ls_read_loop]. destruct (Z.eqb_spec m 0); [now cbn|]. destruct (Z.ltb_spec m 0); [now cbn|].
        pose proof (calmk_next k s HC) as HN. pose proof (next_ahead pnext N True None s r p HA) as HA'.
        destruct (ls_next pnext s) as [[c| |e] s1] eqn:EN; [|now cbn|easy].
        destruct HN as (HC1 & HL & HF). destruct HA' as (r' & -> & _ & HA1 & _).
        pose proof (calmk_pushback c (Z.to_nat m) k s1 HC1 Hk HL HF ltac:(lia)) as HU.
        pose proof (unget_ahead pnext N True None (skipn (Z.to_nat m) c) s1 _ _ HA1) as HA2.
        destruct (ls_unget (skipn (Z.to_nat m) c) s1) as [[u|e] s2]; [|easy].
        eapply IH; eassumption. }
      eapply G; eassumption. }
    destruct (ls_read_loop pnext fuel (Z.of_nat n) [] s) as [[b|e] s'].
    - destruct HR as [-> HA']. rewrite Nat2Z.id in *. exists s'. split; [easy|].
      eapply ahead_sat; eassumption.
    - cbn in HQ. congruence.
  Qed.

  (** reading with a negative size changes nothing *)
  Lemma read_neg fuel n s : (n < 0)%Z -> 0 < fuel ->
    ls_read pnext fuel (Some n) s = (Err AssertionError, s).
  Proof.
    intros Hn Hf. destruct fuel as [|fuel]; [lia|]. unfold ls_read. cbn [ls_read_loop].
    destruct (Z.eqb_spec n 0); [lia|]. destruct (Z.ltb_spec n 0); [easy|lia].
  Qed.

  Lemma sat_read_all N k s r fuel : sat N k s r -> N + 2 <= fuel ->
    exists s', ls_read pnext fuel None s = (Ok r, s') /\ sat N k s' [].
  Proof.
    intros HS Hf. pose proof HS as [p cs q H1 H2 H3 H4 H5 H6]. apply sat_ahead in HS as [HA HC].
    unfold ls_read. rewrite H4. pose proof (calmk_join k fuel [] s HC) as HC'.
    pose proof (join_ahead pnext True fuel N s r (ls_pos s) [] HA) as HR.
    specialize (HR ltac:(destruct (ls_left s); lia)).
    destruct (ls_join pnext fuel [] s) as [[b|e] s']; [|easy].
    destruct HR as [-> HA']. exists s'. split; [easy|]. eapply ahead_sat; eassumption.
  Qed.
End Calm.
