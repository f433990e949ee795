(** * Facts about BoundaryIter *)
From Coq Require Import ZifyBool.
From Verif Require Import Py Spec PyFacts StreamModel StreamSpec StreamFacts StreamCalm BoundaryModel BoundarySpec.

(** ** Histories without four equal consecutive entries *)
Definition ok4 (h : list nat) : Prop := forall a x b, h <> a ++ [x; x; x; x] ++ b.
Fixpoint lead (x : nat) (h : list nat) : nat :=
  match h with y :: t => if Nat.eqb y x then S (lead x t) else 0 | [] => 0 end.

Lemma ok4_tail y h : ok4 (y :: h) -> ok4 h.
Proof. intros H a x b ->. apply (H (y :: a) x b). easy. Qed.
Lemma ok4_nil : ok4 [].
Proof. intros a x b H. now destruct a. Qed.
Lemma ok4_lead y h : ok4 h -> lead y h <= 2 -> ok4 (y :: h).
Proof.
  intros H HL a x b E. destruct a as [|z a].
  - cbn in E. injection E as -> E. subst h. cbn in HL. rewrite Nat.eqb_refl in HL. lia.
  - injection E as -> E. now apply (H a x b).
Qed.
Lemma ok4_lead3 h x : ok4 h -> lead x h <= 3.
Proof.
  intros H. destruct h as [|a [|b [|c [|d t]]]]; cbn; try lia;
    destruct (Nat.eqb_spec a x); try lia; destruct (Nat.eqb_spec b x); try lia;
    destruct (Nat.eqb_spec c x); try lia; destruct (Nat.eqb_spec d x); try lia.
  subst. exfalso. apply (H [] x t). easy.
Qed.
Lemma ok4_count h x : ok4 h -> 4 * count_occ Nat.eq_dec h x <= 3 * length h + lead x h.
Proof.
  induction h as [|y h IH]; intros H; [cbn; lia|]. cbn [count_occ length lead].
  specialize (IH (ok4_tail _ _ H)). pose proof (ok4_lead3 h x (ok4_tail _ _ H)).
  destruct (Nat.eq_dec y x) as [->|Hn].
  - rewrite Nat.eqb_refl. lia.
  - destruct (Nat.eqb_spec y x); [easy|]. lia.
Qed.
Lemma ok4_firstn k h : ok4 h -> ok4 (firstn k h).
Proof.
  intros H a x b E. apply (H a x (b ++ skipn k h)).
  rewrite <- (firstn_skipn k h) at 1. rewrite E. now rewrite <- !app_assoc.
Qed.
Lemma ok4_firstn_cons y k h : ok4 (y :: h) -> ok4 (y :: firstn k h).
Proof. intros H. change (y :: firstn k h) with (firstn (S k) (y :: h)). now apply ok4_firstn. Qed.
Lemma lead_firstn x k : forall h, lead x (firstn k h) <= lead x h.
Proof.
  induction k as [|k IH]; intros h; cbn; [lia|]. destruct h as [|y h]; cbn; [lia|].
  destruct (Nat.eqb y x); [|lia]. specialize (IH h). lia.
Qed.

Section BI.
  Context {P : Type} (pnext : P -> nxt * P).
  Notation LS := (lstream P).

  (** an unget whose size keeps the history free of runs never trips the guard *)
  Lemma unget_ok4 b (s : LS) : (b <> [] -> ok4 (length b :: ls_hist s)) ->
    ls_unget b s = (Ok tt, mkLS (ls_prod s) (b ++ ls_left s) (ls_pos s - zlen b)
                           (match b with [] => ls_hist s | _ => length b :: firstn 49 (ls_hist s) end)
                           (ls_remaining s)).
  Proof.
    intros H. unfold ls_unget. destruct b as [|x b].
    - destruct s; cbn. unfold zlen; cbn. do 2 f_equal. lia.
    - specialize (H ltac:(easy)). apply (ok4_firstn_cons _ 49) in H.
      pose proof (ok4_count _ (length (x :: b)) H) as HC.
      pose proof (ok4_lead3 _ (length (x :: b)) H) as HL.
      assert (length (length (x :: b) :: firstn 49 (ls_hist s)) <= 50).
      { cbn [length]. rewrite firstn_length. lia. }
      destruct (Nat.ltb_spec 40 (count_occ Nat.eq_dec (length (x :: b) :: firstn 49 (ls_hist s)) (length (x :: b))));
        [lia|easy].
  Qed.

  (** ** The content of the outer stream.  [q]: the producer once exhausted. *)
  Inductive live (q : P) (N : nat) (s : LS) (r : str) : Prop :=
  | live_intro p cs : ls_prod s = Some p -> yields pnext p cs None q -> length cs <= N ->
      Forall (fun c => c <> []) cs -> ls_remaining s = None -> r = ls_left s ++ concat cs ->
      live q N s r.
  Lemma live_mono q N M s r : N <= M -> live q N s r -> live q M s r.
  Proof. intros H [p cs H1 H2 H3 H4 H5 H6]. econstructor; try eassumption. lia. Qed.
  Lemma live_init p cs q : yields pnext p cs None q -> Forall (fun c => c <> []) cs ->
    live q (length cs) (ls_init p None) (concat cs).
  Proof. intros H1 H2. econstructor; cbn; try reflexivity; eauto. Qed.
  Lemma live_unget q N b s r : live q N s r -> (b <> [] -> ok4 (length b :: ls_hist s)) ->
    exists s', ls_unget b s = (Ok tt, s') /\ live q N s' (b ++ r) /\ ls_left s' = b ++ ls_left s /\
      ls_hist s' = (match b with [] => ls_hist s | _ => length b :: firstn 49 (ls_hist s) end) /\
      ls_prod s' = ls_prod s.
  Proof.
    intros [p cs H1 H2 H3 H4 H5 H6] H. rewrite unget_ok4 by easy. eexists. split; [reflexivity|].
    cbn. repeat split; try easy. econstructor; cbn; try eassumption. subst r. now rewrite app_assoc.
  Qed.
  Lemma live_next q N s r : live q N s r ->
    match ls_next pnext s with
    | (Chunk c, s') => c <> [] /\ exists r', r = c ++ r' /\ live q N s' r' /\ ls_left s' = [] /\
         (ls_left s <> [] /\ c = ls_left s /\ ls_hist s' = ls_hist s \/
          ls_left s = [] /\ ls_hist s' = [] /\ exists M, N = S M /\ live q M s' r')
    | (Stop, s') => r = [] /\ live q N s' [] /\ ls_left s = [] /\ ls_left s' = [] /\ ls_hist s' = ls_hist s /\
                    ls_prod s' = Some q
    | (Raise _, _) => False
    end.
  Proof.
    intros [p cs H1 H2 H3 H4 H5 H6]. unfold ls_next. destruct (ls_left s) as [|x l] eqn:El.
    - rewrite H1. inversion H2 as [p0 q0 G1 G2|p0 q0 e0 G1|p0 c0 p1 cs0 e0 q0 G1 G2]; subst.
      + rewrite G1. cbn. repeat split; try easy.
        apply (live_intro _ _ _ _ q []); cbn; try easy; try lia. eapply y_stop; eassumption.
      + rewrite G1. inversion H4; subst. cbn in H3. split; [easy|]. exists (concat cs0). cbn [concat app].
        repeat split; try easy.
        * econstructor; cbn; try reflexivity; try eassumption. lia.
        * right. repeat split; try easy. destruct N as [|M]; [lia|]. exists M. split; [easy|].
          econstructor; cbn; try reflexivity; try eassumption. lia.
    - split; [easy|]. exists (concat cs). repeat split; try easy.
      + econstructor; cbn; try reflexivity; try eassumption.
      + left. easy.
  Qed.

  (** ** Collecting the chunks of one step *)
  Lemma collect_spec q rb : forall fuel N s r read (acc : list str), live q N s r ->
    (match ls_left s with [] => 1 | _ => 2 end) + N < fuel + 0 ->
    read = length (concat acc) -> read <= rb -> Forall (fun c => c <> []) acc ->
    exists (cs : list str) ended s1 r', bi_collect pnext fuel rb read acc s = (Ok (acc ++ cs, ended), s1) /\
      Forall (fun c => c <> []) (acc ++ cs) /\
      r = concat cs ++ r' /\ live q N s1 r' /\ ls_left s1 = [] /\
      (if ended then r' = [] /\ length (concat (acc ++ cs)) <= rb else rb < length (concat (acc ++ cs))) /\
      (ended = true -> ls_prod s1 = Some q) /\
      (concat cs = ls_left s /\ ls_hist s1 = ls_hist s \/ ls_hist s1 = []).
  Proof.
    induction fuel as [|fuel IH]; intros N s r read acc HL Hf Hread Hrb Hacc; [destruct (ls_left s); lia|].
    cbn [bi_collect]. pose proof (live_next q N s r HL) as HN.
    destruct (ls_next pnext s) as [[c| |e] s1]; [| |easy].
    - destruct HN as (Hc & r' & -> & HL1 & Hleft & Hcase).
      assert (HF : Forall (fun c => c <> []) (acc ++ [c])) by (apply Forall_app; split; auto).
      assert (Hlen : read + length c = length (concat (acc ++ [c])))
        by (rewrite concat_app, app_length, Hread; cbn; rewrite app_nil_r; lia).
      destruct (Nat.ltb_spec rb (read + length c)) as [Hlt|Hge].
      + exists [c], false, s1, r'. cbn [concat]. rewrite app_nil_r. repeat split; try easy; try lia.
        destruct Hcase as [(H1 & H2 & H3)|(H1 & H2 & H3)]; [left; now rewrite H2|now right].
      + destruct c as [|x c]; [easy|].
        assert (HX : exists M, live q M s1 r' /\ 1 + M < fuel + 0 /\ M <= N).
        { destruct Hcase as [(H1 & H2 & H3)|(H1 & H2 & M & -> & H3)].
          - exists N. split; [easy|]. destruct (ls_left s); [easy|]. lia.
          - exists M. rewrite H1 in Hf. split; [easy|]. lia. }
        destruct HX as (M & HLM & HfM & HMN).
        destruct (IH M s1 r' (read + length (x :: c)) (acc ++ [x :: c]) HLM) as
          (cs & ended & s2 & r2 & E & F & -> & L2 & Left2 & Hend & Hq & Hh); try easy.
        { rewrite Hleft. easy. }
        rewrite <- app_assoc in E, F, Hend.
        exists ((x :: c) :: cs), ended, s2, r2. split; [exact E|]. cbn [concat].
        repeat split; try easy.
        * now rewrite app_assoc.
        * now apply (live_mono q M).
        * destruct Hh as [(H1 & H2)|H1]; [|now right]. rewrite Hleft in H1.
          destruct Hcase as [(G1 & G2 & G3)|(G1 & G2 & G3)].
          -- left. rewrite H1, app_nil_r. split; [easy|congruence].
          -- right. congruence.
    - destruct HN as (-> & HL1 & H1 & H2 & H3 & H4). exists [], true, s1, []. rewrite app_nil_r.
      repeat split; try easy; try lia.
      left. now rewrite H1.
  Qed.
End BI.

(** ** Backing over the line break *)
Definition nl_free (D : str) : Prop := match D with [] => False | c :: _ => c <> CR /\ c <> LF end.

Lemma char_at_app i c u v : i < length u -> char_at i c (u ++ v) = char_at i c u.
Proof. intros H. unfold char_at. now rewrite nth_error_app1. Qed.
Lemma char_at_last u x c : char_at (length u) c (u ++ [x]) = N.eqb x c.
Proof. unfold char_at. rewrite nth_error_app2, Nat.sub_diag by lia. easy. Qed.

Lemma trim_eol_snoc_lf u : trim_eol (u ++ [LF]) =
  match rev u with 13%N :: r => rev r | _ => u end.
Proof.
  unfold trim_eol. rewrite rev_app_distr. cbn [rev app]. change LF with 10%N. cbv iota.
  destruct (rev u) as [|y r] eqn:E.
  - apply (f_equal (@rev N)) in E. rewrite rev_involutive in E. now subst.
  - assert (Eu : u = rev (y :: r)) by (rewrite <- E; now rewrite rev_involutive).
    destruct y as [|y]; [easy|]. do 5 (destruct y as [y|y|]; try (now rewrite Eu)).
Qed.
Lemma trim_eol_snoc_cr u : trim_eol (u ++ [CR]) = u.
Proof. unfold trim_eol. rewrite rev_app_distr. cbn [rev app]. change CR with 13%N. cbv iota. now rewrite rev_involutive. Qed.
Lemma trim_eol_snoc_other u c : c <> CR -> c <> LF -> trim_eol (u ++ [c]) = u ++ [c].
Proof.
  intros H1 H2. unfold trim_eol. rewrite rev_app_distr. cbn [rev app].
  destruct c as [|c]; [easy|]. do 5 (destruct c as [c|c|]; try easy).
Qed.
Lemma trim_eol_nil : trim_eol [] = [].
Proof. easy. Qed.
Lemma trim_eol_snoc_crlf u : trim_eol (u ++ [CR; LF]) = u.
Proof.
  change [CR; LF] with ([CR] ++ [LF]). rewrite app_assoc, trim_eol_snoc_lf, rev_app_distr. cbn.
  now rewrite rev_involutive.
Qed.
Lemma trim_eol_snoc_lf_only u c : c <> CR -> trim_eol (u ++ [c] ++ [LF]) = u ++ [c].
Proof.
  intros H. rewrite app_assoc, trim_eol_snoc_lf, rev_app_distr. cbn.
  destruct c as [|c]; [easy|]. do 5 (destruct c as [c|c|]; try easy).
Qed.
(** trimming looks at the last two bytes only *)
Lemma trim_eol_app u v : 2 <= length v -> trim_eol (u ++ v) = u ++ trim_eol v.
Proof.
  intros H. destruct (rev v) as [|a [|b w]] eqn:E;
    [apply (f_equal (@length N)) in E; rewrite rev_length in E; cbn in E; lia..|].
  assert (Ev : v = rev w ++ [b] ++ [a]).
  { rewrite <- (rev_involutive v), E. cbn. now rewrite <- app_assoc. }
  rewrite Ev. clear. destruct (N.eq_dec a LF) as [->|H1]; [destruct (N.eq_dec b CR) as [->|H2]|].
  - change ([CR] ++ [LF]) with [CR; LF]. rewrite app_assoc, !trim_eol_snoc_crlf. easy.
  - rewrite app_assoc, !trim_eol_snoc_lf_only by easy. now rewrite <- app_assoc.
  - rewrite !app_assoc. destruct (N.eq_dec a CR) as [->|H2].
    + now rewrite !trim_eol_snoc_cr, <- !app_assoc.
    + now rewrite !trim_eol_snoc_other, <- !app_assoc.
Qed.
Lemma trim_eol_prefix u : exists w, u = trim_eol u ++ w.
Proof.
  destruct (list_eq_dec N.eq_dec u []) as [->|Hu]; [now exists []|].
  destruct (exists_last Hu) as (v & c & ->). destruct (N.eq_dec c LF) as [->|H1].
  - destruct (list_eq_dec N.eq_dec v []) as [->|Hv]; [now exists [LF]|].
    destruct (exists_last Hv) as (w & d & ->). destruct (N.eq_dec d CR) as [->|H2].
    + rewrite <- app_assoc. change ([CR] ++ [LF]) with [CR; LF]. rewrite trim_eol_snoc_crlf. now exists [CR; LF].
    + rewrite <- app_assoc, trim_eol_snoc_lf_only by easy. exists [LF]. now rewrite <- app_assoc.
  - destruct (N.eq_dec c CR) as [->|H2].
    + rewrite trim_eol_snoc_cr. now exists [CR].
    + rewrite trim_eol_snoc_other by easy. exists []. now rewrite app_nil_r.
Qed.
Lemma trim_eol_length u : length (trim_eol u) <= length u.
Proof. destruct (trim_eol_prefix u) as [w E]. rewrite E at 2. rewrite app_length. lia. Qed.

Lemma find_boundary_spec D u v : nl_free D -> find D (u ++ D ++ v) = Some (length u) ->
  find_boundary D (u ++ D ++ v) = Some (zlen (trim_eol u), length u + length D) /\
  slice_to (zlen (trim_eol u)) (u ++ D ++ v) = trim_eol u.
Proof.
  intros HD HF. split.
  - unfold find_boundary. rewrite HF. destruct D as [|d D]; [easy|]. destruct HD as [HD1 HD2].
    destruct (list_eq_dec N.eq_dec u []) as [->|Hu].
    { apply N.eqb_neq in HD1, HD2. unfold char_at. cbn [app length Z.of_nat].
      change (Z.to_nat (0 - 1)) with 0. cbn [nth_error]. rewrite HD2.
      change (Z.to_nat (0 - 1)) with 0. cbn [nth_error]. rewrite HD1. easy. }
    destruct (exists_last Hu) as (w & c & ->).
    replace (Z.to_nat (Z.of_nat (length (w ++ [c])) - 1)) with (length w) by (rewrite app_length; cbn; lia).
    assert (EC : forall x t, char_at (length w) x ((w ++ [c]) ++ t) = N.eqb c x).
    { intros x t. rewrite char_at_app by (rewrite app_length; cbn; lia). apply char_at_last. }
    rewrite EC. destruct (N.eqb_spec c LF) as [->|H1].
    + destruct (list_eq_dec N.eq_dec w []) as [->|Hw].
      { cbn. unfold char_at. cbn. easy. }
      destruct (exists_last Hw) as (w' & c' & ->).
      replace (Z.to_nat (Z.of_nat (length ((w' ++ [c']) ++ [LF])) - 1 - 1)) with (length w')
        by (rewrite !app_length; cbn; lia).
      rewrite <- !app_assoc. rewrite (app_assoc w' [c']), char_at_app by (rewrite app_length; cbn; lia).
      rewrite char_at_last. destruct (N.eqb_spec c' CR) as [->|H2].
      * change ([CR] ++ [LF]) with [CR; LF]. rewrite trim_eol_snoc_crlf. f_equal. f_equal.
        unfold zlen. rewrite !app_length. cbn. lia.
      * rewrite trim_eol_snoc_lf_only by easy. f_equal. f_equal. unfold zlen. rewrite !app_length. cbn. lia.
    + replace (Z.to_nat (Z.of_nat (length (w ++ [c])) - 1)) with (length w) by (rewrite app_length; cbn; lia).
      rewrite EC. destruct (N.eqb_spec c CR) as [->|H2].
      * rewrite trim_eol_snoc_cr. f_equal. f_equal. unfold zlen. rewrite !app_length. cbn. lia.
      * rewrite trim_eol_snoc_other by easy. easy.
  - unfold slice_to. unfold zlen. destruct (Z.ltb_spec (Z.of_nat (length (trim_eol u))) 0); [lia|].
    rewrite Nat2Z.id. destruct (trim_eol_prefix u) as [w E]. rewrite E at 2. rewrite <- app_assoc.
    apply firstn_app_exact.
Qed.

(** ** Where the delimiter is when the first [m] bytes are given away *)
Lemma occurs_app_r D c r : occurs D r -> occurs D (c ++ r).
Proof. intros (u & v & ->). exists (c ++ u), v. now rewrite <- app_assoc. Qed.
Lemma first_occ_ext D u v t : first_occ D (u ++ D ++ v) u v -> first_occ D ((u ++ D ++ v) ++ t) u (v ++ t).
Proof.
  intros [H1 H2]. assert (HF : find D (u ++ D ++ v) = Some (length u)).
  { apply find_first_occ. exists u, v. split; [split|]; easy. }
  apply (find_app_l _ _ t) in HF. apply find_first_occ in HF as (u' & v' & [E HM] & El).
  split; [now rewrite <- !app_assoc|]. intros a b Hab. rewrite <- El. now apply (HM a b).
Qed.

(** if [D] does not occur in [c], where [c] = [a ++ b] and [b] is longer than [D]+5 *)
Lemma block_skip D a b r t af : D <> [] -> ~ occurs D (a ++ b) -> length D + 2 <= length b ->
  block D (b ++ r) t af -> block D ((a ++ b) ++ r) (a ++ t) af.
Proof.
  intros HD HN Hb HB. inversion HB as [u v [Ho Hm] E1 E2|Ho E1 E2]; subst.
  - (* [u] is at least two bytes long *)
    assert (Hu : length b < length u + length D).
    { destruct (Nat.lt_ge_cases (length b) (length u + length D)) as [|Hge]; [easy|]. exfalso. apply HN.
      assert (Eb : b = u ++ D ++ firstn (length b - length u - length D) v).
      { pose proof (f_equal (firstn (length b)) Ho) as E. rewrite firstn_app_exact in E. etransitivity; [exact E|].
        rewrite firstn_app, firstn_all2 by lia. f_equal. rewrite firstn_app, firstn_all2 by lia. easy. }
      rewrite Eb. exists (a ++ u), (firstn (length b - length u - length D) v). now rewrite <- app_assoc. }
    rewrite <- trim_eol_app by lia. constructor. split.
    + rewrite <- !app_assoc. now rewrite Ho.
    + intros u' v' E. rewrite app_length. destruct (Nat.lt_ge_cases (length u') (length a)) as [Hlt|Hge].
      * (* an occurrence that starts in [a] ends before the end of [a ++ b] *)
        exfalso. apply HN. rewrite <- app_assoc in E.
        exists u', (firstn (length (a ++ b) - length u' - length D) v').
        assert (Eab : (a ++ b) = firstn (length (a ++ b)) (u' ++ D ++ v')).
        { rewrite <- E. rewrite app_assoc. now rewrite firstn_app_exact. }
        rewrite Eab at 1. rewrite app_length. rewrite firstn_app, firstn_all2 by (rewrite ?app_length; lia).
        f_equal. rewrite firstn_app, firstn_all2 by (rewrite ?app_length; lia). easy.
      * rewrite <- app_assoc in E. apply app_eq_split in E as (w & -> & E); [|lia].
        rewrite app_length. specialize (Hm w v' E). lia.
  - rewrite app_assoc. constructor. intros (u' & v' & E).
    destruct (Nat.lt_ge_cases (length u') (length a)) as [Hlt|Hge].
    + apply HN. rewrite <- app_assoc in E.
      exists u', (firstn (length (a ++ b) - length u' - length D) v').
      assert (Eab : (a ++ b) = firstn (length (a ++ b)) (u' ++ D ++ v')).
      { rewrite <- E. rewrite app_assoc. now rewrite firstn_app_exact. }
      rewrite Eab at 1. rewrite app_length. rewrite firstn_app, firstn_all2 by (rewrite ?app_length; lia).
      f_equal. rewrite firstn_app, firstn_all2 by (rewrite ?app_length; lia). easy.
    + rewrite <- app_assoc in E. apply app_eq_split in E as (w & -> & E); [|lia].
      apply Ho. now exists w, v'.
Qed.
Lemma block_exists D r : exists t af, block D r t af.
Proof.
  destruct (find D r) as [i|] eqn:E.
  - apply find_first_occ in E as (u & v & H & _). exists (trim_eol u), (Some v). now constructor.
  - apply find_None in E. exists r, None. now constructor.
Qed.
Lemma block_det D r t af t' af' : block D r t af -> block D r t' af' -> t = t' /\ af = af'.
Proof.
  intros H1 H2. destruct H1 as [u v [Ho Hm]|Ho]; destruct H2 as [u' v' [Ho' Hm']|Ho'].
  - assert (length u = length u') by (specialize (Hm _ _ Ho'); specialize (Hm' _ _ Ho); lia).
    rewrite Ho in Ho'. apply app_eq_split in Ho' as (e & He & E); [|lia].
    assert (e = []) by (destruct e; [easy|]; rewrite He, app_length in H; cbn in H; lia). subst e.
    rewrite app_nil_r in He. subst u'. cbn in E. apply app_inv_head in E. now subst.
  - exfalso. apply Ho'. now exists u, v.
  - exfalso. apply Ho. now exists u', v'.
  - easy.
Qed.
Lemma block_le D r t af : block D r t af -> length t <= length r.
Proof.
  intros H. inversion H as [u v [Ho Hm] E1 E2|Ho E1 E2]; subst; [|lia].
  rewrite !app_length. pose proof (trim_eol_length u). lia.
Qed.
Lemma block_nil D t af : D <> [] -> block D [] t af -> t = [] /\ af = None.
Proof.
  intros HD H. inversion H as [u v [Ho Hm] E1 E2|Ho E1 E2]; subst; [|easy].
  destruct u; [|easy]. now destruct D.
Qed.
Definition odef (o : option str) : str := match o with Some s => s | None => [] end.

(** ** The guard of the outer stream *)
Section Guard.
  Context {P : Type} (pnext : P -> nxt * P).
  Notation LS := (lstream P).

  (** inside a part *)
  Definition okC (s : LS) : Prop :=
    ok4 (ls_hist s) /\
    forall y, y < length (ls_left s) -> 2 <= y \/ y < length (ls_left s) - 1 -> 0 < y ->
      ok4 (y :: ls_hist s) /\ (y = 1 -> ok4 (1 :: 1 :: ls_hist s)).
  (** after a step, and between parts *)
  Definition okA (s : LS) : Prop :=
    ok4 (ls_hist s) /\
    (ls_left s = [] \/
     exists h, ls_hist s = length (ls_left s) :: h /\ (length (ls_left s) = 1 -> ok4 (1 :: ls_hist s))).

  Lemma okA_okC s : okA s -> okC s.
  Proof.
    intros [H1 [H2|(h & H2 & H3)]]; (split; [easy|]); intros y Hy Hy2 Hy0.
    - rewrite H2 in Hy. cbn in Hy. lia.
    - assert (HL : lead y (ls_hist s) = 0).
      { rewrite H2. cbn. destruct (Nat.eqb_spec (length (ls_left s)) y); [lia|easy]. }
      split; [apply ok4_lead; [easy|lia]|]. intros ->.
      apply ok4_lead; [apply ok4_lead; [easy|lia]|]. cbn [lead]. rewrite Nat.eqb_refl. lia.
  Qed.
  Lemma okA_init p : okA (ls_init p None).
  Proof. split; [apply ok4_nil|now left]. Qed.

  (** pushing back [y] bytes over an empty buffer, inside a part *)
  Lemma okA_push q N s s0 r b : live pnext q N s r -> ls_left s = [] -> okC s0 ->
    (length b < length (ls_left s0) /\ (2 <= length b \/ length b < length (ls_left s0) - 1) /\
     ls_hist s = ls_hist s0 \/ ls_hist s = []) ->
    exists s', ls_unget b s = (Ok tt, s') /\ live pnext q N s' (b ++ r) /\ okA s'.
  Proof.
    intros HL Hleft [HC1 HC2] Hcase.
    assert (Hok : b <> [] -> ok4 (length b :: ls_hist s) /\ (length b = 1 -> ok4 (1 :: 1 :: ls_hist s))).
    { intros Hb. assert (0 < length b) by (destruct b; [easy|cbn; lia]).
      destruct Hcase as [(H1 & H2 & ->)| ->]; [now apply HC2|].
      split; [|intros _]; intros a x c E; apply (f_equal (@length nat)) in E;
        rewrite !app_length in E; cbn in E; lia. }
    destruct (live_unget pnext q N b s r HL) as (s' & E & HL' & Hl' & Hh' & _); [now intros; apply Hok|].
    exists s'. split; [easy|]. split; [easy|]. rewrite Hleft, app_nil_r in Hl'. destruct b as [|x b].
    - split; [|now left]. rewrite Hh'. destruct Hcase as [(H1 & H2 & ->)| ->]; [easy|apply ok4_nil].
    - destruct (Hok ltac:(easy)) as [K1 K2]. split.
      + rewrite Hh'. now apply ok4_firstn_cons.
      + right. exists (firstn 49 (ls_hist s)). rewrite Hh', Hl'. split; [easy|]. intros E1. rewrite E1.
        change (1 :: 1 :: firstn 49 (ls_hist s)) with (firstn 51 (1 :: 1 :: ls_hist s)).
        apply ok4_firstn. now apply K2.
  Qed.

  (** [BoundaryIter.__init__]: the peek *)
  Lemma bi_init_spec q N s r D fuel : live pnext q N s r -> okA s -> N + 3 <= fuel ->
    match bi_init pnext fuel s D with
    | (Ok b, s') => r <> [] /\ b = mkBI s' D false /\ live pnext q N s' r /\ okC s'
    | (Err e, s') => r = [] /\ e = InputStreamExhausted /\ live pnext q N s' [] /\ okA s' /\ ls_prod s' = Some q
    end.
  Proof.
    intros HL HA Hf. unfold bi_init, ls_read. destruct fuel as [|fuel]; [lia|]. destruct fuel as [|fuel]; [lia|].
    cbn [ls_read_loop]. change (Z.eqb 1 0) with false. change (Z.ltb 1 0) with false. cbv iota.
    pose proof (live_next pnext q N s r HL) as HN.
    destruct (ls_next pnext s) as [[c| |e] s1]; [| |easy].
    - destruct HN as (Hc & r' & -> & HL1 & Hleft & Hcase). destruct c as [|x c]; [easy|].
      change (Z.to_nat 1) with 1. cbn [skipn firstn].
      assert (Hok1 : c <> [] -> ok4 (length c :: ls_hist s1)).
      { intros Hne. destruct Hcase as [(H1 & H2 & ->)|(H1 & -> & _)].
        - destruct HA as [HA1 [HA2|(h & HA2 & HA3)]]; [easy|]. rewrite HA2.
          apply ok4_lead; [now rewrite <- HA2|]. cbn [lead]. rewrite <- H2. cbn [length].
          destruct (Nat.eqb_spec (S (length c)) (length c)); lia.
        - intros a z b E; apply (f_equal (@length nat)) in E; rewrite !app_length in E; cbn in E; lia. }
      destruct (live_unget pnext q N c s1 r' HL1 Hok1) as (s2 & E2 & HL2 & Hl2 & Hh2 & _). rewrite E2.
      cbn [app]. change (1 - zlen [x])%Z with 0%Z. change (Z.eqb 0 0) with true. cbv iota.
      assert (HH : c <> [] /\ ls_hist s2 = length c :: firstn 49 (ls_hist s1) /\ ok4 (ls_hist s2) \/
                   c = [] /\ ok4 (1 :: ls_hist s2)).
      { destruct c as [|y c].
        - right. split; [easy|]. rewrite Hh2.
          destruct Hcase as [(H1 & H2 & ->)|(H1 & -> & _)].
          + destruct HA as [HA1 [HA2|(h & HA2 & HA3)]]; [easy|]. apply HA3. now rewrite <- H2.
          + intros a z b E; apply (f_equal (@length nat)) in E; rewrite !app_length in E; cbn in E; lia.
        - left. split; [easy|]. split; [easy|]. rewrite Hh2. apply ok4_firstn_cons. now apply Hok1. }
      assert (Hok2 : ok4 (1 :: ls_hist s2)).
      { destruct HH as [(Hne & Hh & Ho)|(Hne & Ho)]; [|easy].
        rewrite Hh. apply ok4_lead; [now rewrite <- Hh|]. cbn [lead].
        destruct (Nat.eqb_spec (length c) 1); [|lia].
        (* the buffer had two bytes; its size stands before *)
        pose proof (lead_firstn 1 49 (ls_hist s1)) as HLF.
        enough (lead 1 (ls_hist s1) <= 1) by lia.
        destruct Hcase as [(H1 & H2 & ->)|(H1 & -> & _)]; [|cbn; lia].
        destruct HA as [HA1 [HA2|(h & HA2 & HA3)]]; [easy|]. rewrite HA2, <- H2. cbn. rewrite e. cbn. lia. }
      destruct (live_unget pnext q N [x] s2 _ HL2) as (s3 & E3 & HL3 & Hl3 & Hh3 & _); [now intros _|].
      rewrite E3. split; [easy|]. split; [easy|]. split; [easy|].
      split; [rewrite Hh3; apply ok4_firstn_cons; exact Hok2|].
      intros y Hy Hy2 Hy0. rewrite Hl3, Hl2, Hleft, app_nil_r in Hy, Hy2. cbn [app length] in Hy, Hy2.
      destruct HH as [(Hne & Hh & Ho)|(-> & Ho)]; [|cbn in Hy; lia].
      assert (Hok3 : ok4 (y :: ls_hist s3)).
      { rewrite Hh3. cbn [length]. apply ok4_lead; [now apply (ok4_firstn_cons 1)|].
        rewrite Hh. cbn [firstn lead]. destruct (Nat.eqb_spec 1 y); [|lia].
        destruct (Nat.eqb_spec (length c) y); lia. }
      split; [exact Hok3|]. intros ->. apply ok4_lead; [exact Hok3|].
      rewrite Hh3. cbn [length]. rewrite Hh. cbn [firstn lead Nat.eqb].
      destruct (Nat.eqb_spec (length c) 1); lia.
    - destruct HN as (-> & HL1 & H1 & H2 & H3 & H4). repeat split; try easy.
      + rewrite H3. apply HA.
      + now left.
  Qed.

  (** [BoundaryIter.next] *)
  Lemma bi_next_step q N D b r fuel : nl_free D -> 3 <= length D ->
    bi_boundary b = D -> bi_done b = false -> live pnext q N (bi_stream b) r -> okC (bi_stream b) ->
    N + 3 <= fuel ->
    match bi_next pnext fuel b with
    | (Stop, b') => r = [] /\ bi_done b' = true /\ live pnext q N (bi_stream b') [] /\ okA (bi_stream b') /\
                    bi_boundary b' = D
    | (Chunk c, b') => bi_boundary b' = D /\ okA (bi_stream b') /\
        (bi_done b' = true /\ (exists af, block D r c af /\ live pnext q N (bi_stream b') (odef af)) \/
         bi_done b' = false /\ c <> [] /\
         exists r', r = c ++ r' /\ live pnext q N (bi_stream b') r' /\
                    forall t af, block D r' t af -> block D r (c ++ t) af)
    | (Raise _, _) => False
    end.
  Proof.
    intros HD HD3 Hb Hdone HL HC Hf. unfold bi_next. rewrite Hdone, Hb.
    destruct (collect_spec pnext q (rollback D) fuel N (bi_stream b) r 0 [] HL) as
      (cs & ended & s1 & r' & E & F & -> & HL1 & Hleft & Hend & Hq & Hh); try easy.
    { destruct (ls_left (bi_stream b)); lia. }
    { lia. }
    rewrite E. cbn [app] in *. destruct cs as [|c0 cs].
    { cbn in Hend. destruct ended; [|lia]. destruct Hend as [-> _]. cbn [concat app bi_done bi_stream bi_boundary].
      repeat split; try easy.
      - destruct Hh as [[_ ->]| ->]; [apply HC|apply ok4_nil].
      - now left. }
    remember (concat (c0 :: cs)) as c eqn:Ec.
    assert (Hcne : c <> []) by (subst c; inversion F; subst; destruct c0; easy).
    assert (Hlen : forall m, 3 <= m -> m <= length c ->
        length (skipn m c) < length (ls_left (bi_stream b)) /\
        (2 <= length (skipn m c) \/ length (skipn m c) < length (ls_left (bi_stream b)) - 1) /\
        ls_hist s1 = ls_hist (bi_stream b) \/ ls_hist s1 = []).
    { intros m Hm1 Hm2. destruct Hh as [[H1 H2]|H1]; [left|now right]. rewrite <- H1, skipn_length. split; [lia|split; [lia|exact H2]]. }
    destruct (find D c) as [i|] eqn:EF.
    - pose proof EF as EF'. apply find_first_occ in EF' as (u & v & [Euv Hmin] & <-).
      rewrite Euv in EF. destruct (find_boundary_spec D u v HD EF) as [EB ES].
      rewrite Euv, EB. rewrite ES.
      destruct (okA_push q N s1 (bi_stream b) r' (skipn (length u + length D) c) HL1 Hleft HC) as (s2 & E2 & HL2 & HA2).
      { apply Hlen; [lia|]. rewrite Euv, !app_length. lia. }
      rewrite Euv in E2. rewrite E2. cbn [bi_boundary bi_stream bi_done]. split; [easy|]. split; [easy|]. left.
      split; [easy|]. exists (Some (v ++ r')). split.
      + constructor. rewrite Euv in Hmin. apply first_occ_ext. split; easy.
      + cbn [odef]. rewrite Euv in HL2. rewrite <- app_length, app_assoc, skipn_app_exact in HL2. exact HL2.
    - unfold find_boundary. rewrite EF. apply find_None in EF.
      destruct (Nat.le_gt_cases (length c) (rollback D)) as [Hle|Hgt].
      + destruct ended; [|lia]. destruct Hend as [-> _].
        unfold upto_neg. replace (length c - rollback D) with 0 by lia. cbn [firstn].
        cbn [bi_boundary bi_stream bi_done]. split; [easy|]. split.
        { split; [|now left]. destruct Hh as [[_ ->]| ->]; [apply HC|apply ok4_nil]. }
        left. split; [easy|]. exists None. rewrite app_nil_r. split; [now constructor|easy].
      + destruct (okA_push q N s1 (bi_stream b) r' (from_neg (rollback D) c) HL1 Hleft HC) as (s2 & E2 & HL2 & HA2).
        { unfold from_neg. destruct Hh as [[H1 H2]|H1]; [left|now right]. rewrite <- H1, skipn_length.
          unfold rollback in *. split; [lia|split; [lia|exact H2]]. }
        assert (Hup : upto_neg (rollback D) c <> []).
        { unfold upto_neg. intros E0. apply (f_equal (@length N.t)) in E0. rewrite firstn_length in E0.
          cbn in E0. lia. }
        destruct (upto_neg (rollback D) c) as [|y w] eqn:EU; [easy|]. rewrite E2.
        assert (ended = false) as ->.
        { destruct ended; [|easy]. destruct Hend as [_ Hend]. lia. }
        cbn [bi_boundary bi_stream bi_done]. split; [easy|]. split; [easy|]. right. split; [easy|]. split; [easy|].
        assert (Ecc : c = (y :: w) ++ from_neg (rollback D) c).
        { rewrite <- EU. unfold upto_neg, from_neg. now rewrite firstn_skipn. }
        exists (from_neg (rollback D) c ++ r'). split; [|split].
        * rewrite Ecc at 1. now rewrite <- app_assoc.
        * easy.
        * intros t af HB. rewrite Ecc. apply block_skip; [now destruct D| | |easy].
          -- now rewrite <- Ecc.
          -- unfold from_neg. rewrite skipn_length. unfold rollback in *. lia.
  Qed.
End Guard.
