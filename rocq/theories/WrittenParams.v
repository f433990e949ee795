(** * Parameters of a header line as clients write them *)
From Coq Require Import ZifyBool ZifyN ZifyNat.
From Verif Require Import Py Spec PyFacts PyDict CodecModel HeaderModel HeaderSpec HeaderFacts PropsPart PropsExt.

(** the parameters of a header line as clients write them: a parameter with blanks around it, a
    parameter with blanks around its '=' as well, or something that is none (nothing at all, as after a last semicolon, or a word without '=') *)
Inductive bit := Given (l : str) (p : par) (r : str) | Wide (l n b : str) (b' : str) (v : pval) (r : str) | Stray (x : str).
Definition bit_text (i : bit) : str :=
  match i with Given l p r => l ++ par_text p ++ r | Wide l n b b' v r => l ++ (n ++ (b ++ !"=" ++ b') ++ render_val v) ++ r | Stray x => x end.
Definition bit_good (reg : registry) (i : bit) : Prop :=
  match i with
  | Given l p r => forallb is_ws l = true /\ par_good reg p /\ forallb is_ws r = true
  | Wide l n b b' v r => forallb is_ws l = true /\ forallb is_ws b = true /\ forallb is_ws b' = true /\ forallb is_ws r = true /\ par_good reg (Ord n v)
  | Stray x => ~ In 61%N x /\ ~ In 59%N x /\ ~ In 34%N x
  end.
Definition render_bits (main : str) (is_ : list bit) : str := main ++ flat_map (fun i => !";" ++ bit_text i) is_.
Definition given (is_ : list bit) : list par := flat_map (fun i => match i with Given _ p _ => [p] | Wide _ n _ _ v _ => [Ord n v] | Stray _ => [] end) is_.

(** ** Proof *)
Lemma lstrip_keep f x r : (exists c, In c x /\ f c = false) -> lstrip_by f (x ++ r) = lstrip_by f x ++ r.
Proof.
  induction x as [|a x IH]; intros (c & Hc & Hf); [destruct Hc|]. cbn [app lstrip_by]. destruct (f a) eqn:E; [|reflexivity].
  apply IH. exists c. split; [|exact Hf]. destruct Hc as [->|Hc]; [congruence|exact Hc].
Qed.
Lemma strip_blanks l x r : forallb is_ws l = true -> forallb is_ws r = true -> In 61%N x -> strip (l ++ x ++ r) = strip x.
Proof.
  intros Hl Hr Hx. unfold strip, strip_by, rstrip_by. rewrite lstrip_by_app_ws by exact Hl. rewrite lstrip_keep by now exists 61%N.
  rewrite rev_app_distr, lstrip_by_app_ws; [reflexivity|]. rewrite forallb_forall in *. intros c Hc. apply Hr. now apply in_rev.
Qed.
Lemma par_equal p : In 61%N (par_text p).
Proof. destruct p; cbn [par_text]; apply in_or_app; right; cbn; auto. Qed.
Lemma ws_quiet l : forallb is_ws l = true -> ~ In hsemi l /\ ~ In hquote l.
Proof. intros H. rewrite forallb_forall in H. split; intros Hc; apply H in Hc; discriminate Hc. Qed.
Lemma tight_ends a m b : tight a = true -> a <> [] -> tight b = true -> b <> [] -> tight (a ++ m ++ b) = true.
Proof.
  intros Ha Na Hb Nb. destruct (last_nonnil b 0%N Nb) as [b' Eb]. set (z := last b 0%N) in *. clearbody z. subst b. destruct a as [|x a]; [easy|].
  assert (Hz : is_ws z = false).
  { destruct b' as [|y b']; cbn [app] in Hb; unfold tight, tight_by in Hb; apply andb_true_iff in Hb as [H1 H2]; [now apply negb_true_iff in H1|].
    change (y :: b' ++ [z]) with ((y :: b') ++ [z]) in H2. rewrite last_last in H2. now apply negb_true_iff in H2. }
  unfold tight, tight_by in *. cbn [app]. apply andb_true_iff in Ha as [Ha _]. rewrite Ha. cbn [andb].
  replace (x :: a ++ m ++ b' ++ [z]) with ((x :: a ++ m ++ b') ++ [z]) by (cbn [app]; now rewrite <- !app_assoc). rewrite last_last. now rewrite Hz.
Qed.
Lemma name_tight n : is_token n = true -> tight n = true.
Proof.
  intros Hn. apply tight_by_all. intros c Hc. pose proof (token_all (fun c => negb (is_ws c)) n eq_refl Hn) as HA.
  rewrite forallb_forall in HA. apply negb_true_iff, HA, Hc.
Qed.
Lemma val_nonempty v : pval_ok v = true -> render_val v <> [].
Proof. intros H. destruct v as [v|v]; [now apply token_nonempty|easy]. Qed.
Lemma ws_equal b : forallb is_ws b = true -> ~ In hequal b.
Proof. intros H Hc. rewrite forallb_forall in H. apply H in Hc. discriminate Hc. Qed.
Lemma wide_parse reg l n b b' v r : bit_good reg (Wide l n b b' v r) -> parse_param reg (strip (bit_text (Wide l n b b' v r))) = Ok (Some (lower n, PB (pval_of v))).
Proof.
  cbn [bit_good bit_text]. intros (Hl & Hb & Hb' & Hr & HG). pose proof (ord_ok reg n v HG) as H.
  pose proof H as [Hn Hv]%andb_true_iff. apply andb_true_iff in Hn as [Hn Hs]. cbn [fst snd] in *.
  pose proof (name_tight n Hn) as HT. pose proof (render_val_tight v Hv) as HV. pose proof (token_nonempty n Hn) as Nn. pose proof (val_nonempty v Hv) as Nv.
  assert (E : strip (l ++ (n ++ (b ++ !"=" ++ b') ++ render_val v) ++ r) = (n ++ b) ++ hequal :: b' ++ render_val v).
  { unfold strip. rewrite strip_by_pad; [|now apply tight_ends|assumption|assumption|now destruct n]. rewrite <- !app_assoc. reflexivity. }
  rewrite E. unfold parse_param. rewrite findc_app.
  2:{ intros [Hc|Hc]%in_app_or; [revert Hc; now apply token_notin|revert Hc; now apply ws_equal]. }
  rewrite firstn_app_exact.
  assert (HSn : strip (n ++ b) = n) by (apply (strip_by_pad is_ws [] n b); assumption || reflexivity). rewrite HSn, decode_ascii_token by easy.
  cbn [bind]. destruct (endswith (lower n) [hstar]) eqn:ES.
  { exfalso. apply negb_true_iff in Hs. rewrite endswith1 in Hs; try easy.
    intros x Hx. unfold lowerc in Hx. destruct (N.leb 65 x && N.leb x 90) eqn:EU; [|easy]. unfold hstar in Hx. lia. }
  cbn [andb]. set (m := n ++ b). clearbody m.
  replace (skipn (S (length m)) (m ++ hequal :: b' ++ render_val v)) with (b' ++ render_val v).
  2:{ change (hequal :: b' ++ render_val v) with ([hequal] ++ b' ++ render_val v). rewrite app_assoc.
      replace (S (length m)) with (length (m ++ [hequal])) by (rewrite app_length; cbn; lia). now rewrite skipn_app_exact. }
  cbn [bind pmap].
  assert (HSv : strip (b' ++ render_val v) = render_val v).
  { rewrite <- (app_nil_r (render_val v)) at 1. apply (strip_by_pad is_ws b' (render_val v) []); assumption || reflexivity. }
  rewrite HSv. now rewrite unquote_render_val.
Qed.
Lemma bit_quiet reg i : bit_good reg i -> qend false (bit_text i) = None /\ qodd (bit_text i) = false.
Proof.
  destruct i as [l p r|l n b b' v r|x]; cbn [bit_good bit_text].
  - intros (Hl & Hp & Hr). destruct (ws_quiet l Hl) as [L1 L2], (ws_quiet r Hr) as [R1 R2], (par_quiet reg p Hp) as [Q1 Q2].
    rewrite qodd_cons in Q2. cbn [N.eqb Pos.eqb] in Q2. cbn [qend] in Q1. change (N.eqb 32 59 && negb false) with false in Q1. change (N.eqb 32 34) with false in Q1.
    assert (Q3 : qend false (par_text p) = None) by (destruct (qend false (par_text p)); [discriminate Q1|reflexivity]).
    split.
    + rewrite qend_app by now apply qend_none. rewrite (qodd_notin l L2). cbn [xorb]. rewrite qend_app by exact Q3. rewrite Q2. cbn [xorb]. rewrite qend_none by exact R1. reflexivity.
    + rewrite !qodd_app, Q2, (qodd_notin l L2), (qodd_notin r R2). reflexivity.
  - intros (Hl & Hb & Hb' & Hr & HG). pose proof (ord_ok reg n v HG) as H. apply andb_true_iff in H as [Hn Hv]. apply andb_true_iff in Hn as [Hn _]. cbn [fst snd] in *.
    destruct (val_quiet v Hv) as [V1 V2], (ws_quiet l Hl) as [L1 L2], (ws_quiet b Hb) as [B1 B2], (ws_quiet b' Hb') as [C1 C2], (ws_quiet r Hr) as [R1 R2].
    set (a := l ++ n ++ b ++ !"=" ++ b').
    assert (A : forall c, ~ In c l -> ~ In c n -> ~ In c b -> c <> 61%N -> ~ In c b' -> ~ In c a).
    { intros c X1 X2 X3 X4 X5. unfold a. rewrite !in_app_iff. cbn [In]. intros [Y|[Y|[Y|[[Y|[]]|Y]]]]; try contradiction. apply X4. now symmetry. }
    replace (l ++ (n ++ (b ++ !"=" ++ b') ++ render_val v) ++ r) with (a ++ render_val v ++ r) by (unfold a; now rewrite <- !app_assoc).
    assert (A1 : ~ In hsemi a) by (apply A; try assumption; [now apply token_notin|discriminate]).
    assert (A2 : ~ In hquote a) by (apply A; try assumption; [now apply token_notin|discriminate]).
    clearbody a. split.
    + rewrite qend_app by now apply qend_none. rewrite (qodd_notin a A2). cbn [xorb]. rewrite qend_app by exact V1. rewrite V2. cbn [xorb]. rewrite qend_none by exact R1. reflexivity.
    + rewrite !qodd_app, V2, (qodd_notin a A2), (qodd_notin r R2). reflexivity.
  - intros (H1 & H2 & H3). split; [now apply qend_none|now apply qodd_notin].
Qed.
Lemma qsplit_bits reg : forall is_ u, Forall (bit_good reg) is_ -> qend false u = None -> qodd u = false ->
  qsplit false (u ++ flat_map (fun i => !";" ++ bit_text i) is_) = u :: map bit_text is_.
Proof.
  induction is_ as [|i is_ IH]; intros u H H1 H2; cbn [flat_map map].
  - rewrite app_nil_r. now apply qsplit_single.
  - inversion H as [|? ? Hp Hps]; subst. destruct (bit_quiet reg i Hp) as [Q1 Q2].
    change ((!";" ++ bit_text i) ++ flat_map (fun i => !";" ++ bit_text i) is_) with (hsemi :: bit_text i ++ flat_map (fun i => !";" ++ bit_text i) is_).
    rewrite qsplit_piece by easy. now rewrite IH.
Qed.
Lemma parse_bits reg : forall is_ d, Forall (bit_good reg) is_ ->
  parse_params reg (map strip (map bit_text is_)) d = Ok (fold_left (fun d p => dset (lower (par_name p)) (par_value p) d) (given is_) d).
Proof.
  induction is_ as [|i is_ IH]; intros d H; [easy|]. inversion H as [|? ? Hp Hps]; subst. cbn [map parse_params]. destruct i as [l p r|l n b b' v r|x]; [|rewrite wide_parse by exact Hp; cbn [bind]; rewrite IH by exact Hps; reflexivity|]; cbn [bit_text bit_good] in *.
  - destruct Hp as (Hl & Hp & Hr). rewrite strip_blanks by (assumption || apply par_equal).
    rewrite <- (strip_blanks !" " (par_text p) []) by (reflexivity || apply par_equal). rewrite app_nil_r. change (!" " ++ par_text p) with (32%N :: par_text p).
    rewrite parse_par by exact Hp. cbn [bind]. rewrite IH by exact Hps. reflexivity.
  - destruct Hp as (Hp & _). unfold parse_param at 1.
    replace (findc hequal (strip x)) with (@None nat) by (symmetry; apply findc_None; intros Hc; apply Hp; now apply strip_In). cbn [bind]. now apply IH.
Qed.
Lemma bits_parse reg main is_ : ascii_only main = true -> ~ In 59%N main -> ~ In 34%N main -> Forall (bit_good reg) is_ ->
  exists d, parse_header reg (render_bits main is_) = Ok (lower (strip main), d) /\ forall n, dget n d = last_par n (given is_).
Proof.
  intros H1 H2 H3 H4. eexists. split.
  - unfold parse_header, render_bits. rewrite parse_header_params_spec, (qsplit_bits reg); [|exact H4|now apply qend_none|now apply qodd_notin].
    cbn [map]. unfold decode_ascii. rewrite lower_ascii by now apply strip_ascii. cbn [bind]. rewrite parse_bits by exact H4. cbn [bind]. reflexivity.
  - intros n. now apply fold_pars.
Qed.
Lemma given_good reg bs : Forall (bit_good reg) bs -> Forall (par_good reg) (given bs).
Proof.
  induction 1 as [|i bs Hp _ IH]; [constructor|]. destruct i as [l p r|l n b b' v r|x]; cbn [given flat_map app]; [| |exact IH]; constructor; try exact IH; apply Hp.
Qed.
