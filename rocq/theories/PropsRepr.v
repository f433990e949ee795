(** * C151: the printed form of a dictionary tells its content *)
From Coq Require Import ZifyBool ZifyN ZifyNat.
From Verif Require Import Py Spec HeadSpec PyFacts PyDict CodecModel MVDModel UploadModel FileApiModel FormSpec FormFacts PropsPart PropsMultipart ReprModel.

(** ** What can be printed *)
Definition text_ok (p : pystr) : Prop :=
  match p with PB s => forall c, In c s -> (c < 256)%N | PU s => forall c, In c s -> (c < 1114112)%N end.
(** no uploaded files *)
Inductive plain : rv -> Prop :=
| pl_str p : text_ok p -> plain (RStr p)
| pl_none : plain RNone
| pl_list l : Forall plain l -> plain (RList l).
Definition plain_item (i : pystr * list rv) : Prop := text_ok (fst i) /\ Forall plain (snd i).
Definition printable (s : str) : Prop := forall c, In c s -> (32 <= c < 127)%N.

Fixpoint rv_all (P : rv -> Prop) (H1 : forall p, P (RStr p)) (H2 : P RNone) (H3 : forall l, Forall P l -> P (RList l))
  (H4 : forall a b c, P (RFile a b c)) (v : rv) : P v :=
  match v with
  | RStr p => H1 p
  | RNone => H2
  | RList l => H3 l ((fix go l : Forall P l := match l with [] => Forall_nil P | x :: r => Forall_cons x (rv_all P H1 H2 H3 H4 x) (go r) end) l)
  | RFile a b c => H4 a b c
  end.

(** ** Characters *)
Definition unhex (d : char) : N := if N.ltb d 58 then (d - 48)%N else (d - 87)%N.
Definition unhexs (s : str) : N := fold_left (fun a d => (16 * a + unhex d)%N) s 0%N.
Lemma unhex_rhex d : (d < 16)%N -> unhex (rhex d) = d.
Proof. unfold unhex, rhex. intros H. destruct (N.ltb d 10) eqn:E; [replace (N.ltb (48 + d) 58) with true by lia|replace (N.ltb (87 + d) 58) with false by lia]; lia. Qed.
Lemma rhexs_length n : forall c, length (rhexs n c) = n.
Proof. induction n as [|n IH]; intros c; [reflexivity|]. cbn [rhexs]. rewrite app_length, IH. cbn. lia. Qed.
Lemma unhexs_rhexs n : forall c, (c < 16 ^ N.of_nat n)%N -> unhexs (rhexs n c) = c.
Proof.
  induction n as [|n IH]; intros c H; [cbn in H; cbn; lia|]. cbn [rhexs]. unfold unhexs in *. rewrite fold_left_app. cbn [fold_left].
  rewrite unhex_rhex by (apply N.mod_lt; discriminate). rewrite IH.
  - symmetry. apply N.div_mod. discriminate.
  - apply N.div_lt_upper_bound; [discriminate|]. rewrite Nat2N.inj_succ, N.pow_succ_r' in H. lia.
Qed.
Definition un_n (n : nat) (s : str) : N * str := (unhexs (firstn n s), skipn n s).
Lemma un_n_ok n c r : (c < 16 ^ N.of_nat n)%N -> un_n n (rhexs n c ++ r) = (c, r).
Proof.
  intros H. unfold un_n. pose proof (rhexs_length n c) as HL.
  assert (E1 : firstn n (rhexs n c ++ r) = rhexs n c) by (rewrite <- HL at 1; apply firstn_app_exact).
  assert (E2 : skipn n (rhexs n c ++ r) = r) by (rewrite <- HL at 1; apply skipn_app_exact).
  now rewrite E1, E2, unhexs_rhexs.
Qed.
Definition un_char (s : str) : N * str :=
  match s with
  | [] => (0%N, [])
  | c :: r => if N.eqb c 92 then
      match r with
      | [] => (0%N, [])
      | d :: r => if N.eqb d 116 then (9%N, r) else if N.eqb d 110 then (10%N, r) else if N.eqb d 114 then (13%N, r)
                  else if N.eqb d 120 then un_n 2 r else if N.eqb d 117 then un_n 4 r else if N.eqb d 85 then un_n 8 r else (d, r)
      end else (c, r)
  end.
Definition quote_mark (q : char) : Prop := q = 39%N \/ q = 34%N.
Lemma un_char_ok q c r : quote_mark q -> (c < 1114112)%N -> un_char (rchar q c ++ r) = (c, r).
Proof.
  intros Hq Hc. unfold rchar. destruct (N.eqb c q || N.eqb c 92) eqn:E1.
  - cbn [app un_char]. change (N.eqb 92 92) with true. cbv iota. assert (H : c = 39%N \/ c = 34%N \/ c = 92%N) by (unfold quote_mark in Hq; lia).
    destruct H as [->|[->| ->]]; reflexivity.
  - destruct (N.eqb c 9) eqn:E2; [apply N.eqb_eq in E2 as ->; reflexivity|]. destruct (N.eqb c 10) eqn:E3; [apply N.eqb_eq in E3 as ->; reflexivity|].
    destruct (N.eqb c 13) eqn:E4; [apply N.eqb_eq in E4 as ->; reflexivity|].
    destruct (N.leb 32 c && N.ltb c 127) eqn:E5.
    + cbn [app un_char]. now replace (N.eqb c 92) with false by lia.
    + destruct (N.ltb c 256) eqn:E6; [|destruct (N.ltb c 65536) eqn:E7]; rewrite <- app_assoc.
      * change (un_char (!"\x" ++ rhexs 2 c ++ r)) with (un_n 2 (rhexs 2 c ++ r)). apply un_n_ok. change (16 ^ N.of_nat 2)%N with 256%N. lia.
      * change (un_char (!"\u" ++ rhexs 4 c ++ r)) with (un_n 4 (rhexs 4 c ++ r)). apply un_n_ok. change (16 ^ N.of_nat 4)%N with 65536%N. lia.
      * change (un_char (!"\U" ++ rhexs 8 c ++ r)) with (un_n 8 (rhexs 8 c ++ r)). apply un_n_ok. change (16 ^ N.of_nat 8)%N with 4294967296%N. lia.
Qed.
Lemma rchar_head q c : quote_mark q -> exists d r, rchar q c = d :: r /\ d <> q.
Proof.
  intros Hq. unfold rchar. destruct (N.eqb c q || N.eqb c 92) eqn:E1; [exists 92%N, [c]; split; [reflexivity|unfold quote_mark in Hq; lia]|].
  assert (H92 : 92%N <> q) by (unfold quote_mark in Hq; lia).
  destruct (N.eqb c 9); [eexists _, _; split; [reflexivity|exact H92]|]. destruct (N.eqb c 10); [eexists _, _; split; [reflexivity|exact H92]|].
  destruct (N.eqb c 13); [eexists _, _; split; [reflexivity|exact H92]|].
  destruct (N.leb 32 c && N.ltb c 127); [exists c, []; split; [reflexivity|lia]|].
  destruct (N.ltb c 256); [|destruct (N.ltb c 65536)]; (eexists _, _; split; [reflexivity|exact H92]).
Qed.
Lemma body_inj q : quote_mark q -> forall s s' x x', (forall c, In c s -> (c < 1114112)%N) -> (forall c, In c s' -> (c < 1114112)%N) ->
  flat_map (rchar q) s ++ q :: x = flat_map (rchar q) s' ++ q :: x' -> s = s' /\ x = x'.
Proof.
  intros Hq. induction s as [|c s IH]; intros [|c' s'] x x' H H' E; cbn [flat_map app] in E.
  - split; [reflexivity|congruence].
  - destruct (rchar_head q c' Hq) as (d & r & Hd & Hne). rewrite Hd in E. cbn [app] in E. congruence.
  - destruct (rchar_head q c Hq) as (d & r & Hd & Hne). rewrite Hd in E. cbn [app] in E. congruence.
  - rewrite <- !app_assoc in E. apply (f_equal un_char) in E.
    rewrite !un_char_ok in E by (assumption || (apply H; now left) || (apply H'; now left)).
    assert (E1 : c = c') by congruence. assert (E2 : flat_map (rchar q) s ++ q :: x = flat_map (rchar q) s' ++ q :: x') by congruence.
    destruct (IH s' x x') as [-> ->]; [intros; apply H; now right|intros; apply H'; now right|exact E2|]. now subst.
Qed.
Lemma rquote_mark s : quote_mark (rquote s).
Proof. unfold rquote, quote_mark. destruct (existsb _ s && _); auto. Qed.
Lemma rtext_inj s s' x x' : (forall c, In c s -> (c < 1114112)%N) -> (forall c, In c s' -> (c < 1114112)%N) ->
  rtext s ++ x = rtext s' ++ x' -> s = s' /\ x = x'.
Proof.
  intros H H' E. unfold rtext in E. cbv zeta in E. cbn [app] in E. assert (EQ : rquote s = rquote s') by congruence. rewrite <- EQ in E.
  rewrite <- !app_assoc in E. cbn [app] in E. injection E as E. now apply (body_inj (rquote s)); [apply rquote_mark|..].
Qed.
Lemma text_bound p : text_ok p -> forall c, In c (pchars p) -> (c < 1114112)%N.
Proof. destruct p as [s|s]; cbn; intros H c Hc; specialize (H c Hc); lia. Qed.
Lemma rtext_head s : exists q r, rtext s = q :: r /\ quote_mark q.
Proof. unfold rtext. cbv zeta. cbn [app]. eexists _, _. split; [reflexivity|apply rquote_mark]. Qed.
Lemma rpy_inj p p' x x' : text_ok p -> text_ok p' -> rpy p ++ x = rpy p' ++ x' -> p = p' /\ x = x'.
Proof.
  intros H H' E. pose proof (text_bound p H) as B. pose proof (text_bound p' H') as B'. clear H H'. destruct p as [s|s], p' as [s'|s']; cbn [rpy pchars app] in *.
  - destruct (rtext_inj s s' x x' B B' E) as [-> ->]. now split.
  - destruct (rtext_head s) as (q & r & Hr & Hq). rewrite Hr in E. cbn [app] in E. unfold quote_mark in Hq. assert (q = 117%N) by congruence. lia.
  - destruct (rtext_head s') as (q & r & Hr & Hq). rewrite Hr in E. cbn [app] in E. unfold quote_mark in Hq. assert (q = 117%N) by congruence. lia.
  - assert (E2 : rtext s ++ x = rtext s' ++ x') by congruence. destruct (rtext_inj s s' x x' B B' E2) as [-> ->]. now split.
Qed.

(** ** Values *)
Definition starts (q : char) : Prop := In q [39; 34; 117; 78; 91]%N.
Lemma rpy_head p : exists q r, rpy p = q :: r /\ (q = 39 \/ q = 34 \/ q = 117)%N.
Proof. destruct p as [s|s]; cbn [rpy]; [destruct (rtext_head s) as (q & r & -> & [->| ->])|]; eexists _, _; split; try reflexivity; auto. Qed.
Lemma rval_head v : plain v -> exists q r, rval v = q :: r /\ starts q.
Proof.
  intros H. unfold starts. cbn [In]. inversion H; subst; cbn [rval].
  - destruct (rpy_head p) as (q & r & -> & Hq). eexists _, _. split; [reflexivity|]. destruct Hq as [->|[->| ->]]; auto.
  - eexists _, _. split; [reflexivity|]. auto.
  - eexists _, _. split; [reflexivity|]. auto 6.
Qed.
(** a list of things that tell themselves apart, up to a closing bracket *)
Lemma join_inj {A} (f : A -> str) (ok : A -> Prop) z : z <> 44%N ->
  (forall a, ok a -> exists q r, f a = q :: r /\ q <> z) ->
  forall l, Forall ok l -> Forall (fun a => forall a' x x', ok a' -> f a ++ x = f a' ++ x' -> a = a' /\ x = x') l ->
  forall l' x x', Forall ok l' -> join !", " (map f l) ++ z :: x = join !", " (map f l') ++ z :: x' -> l = l' /\ x = x'.
Proof.
  intros Hz Hh. induction l as [|a l IH]; intros HO HI l' x x' HO' E.
  - destruct l' as [|a' l']; [split; [reflexivity|cbn in E; congruence]|]. inversion_clear HO' as [|? ? Ha _]. destruct (Hh a' Ha) as (q & r & Hq & Hne).
    exfalso. destruct l' as [|b l']; cbn [map join] in E; rewrite Hq in E; cbn in E; congruence.
  - inversion_clear HO as [|? ? Ha HO2]. inversion_clear HI as [|? ? Hi HI2].
    destruct l' as [|a' l'].
    { exfalso. destruct (Hh a Ha) as (q & r & Hq & Hne). destruct l as [|b l]; cbn [map join] in E; rewrite Hq in E; cbn in E; congruence. }
    inversion_clear HO' as [|? ? Ha' HO3].
    destruct l as [|b l], l' as [|b' l'].
    + cbn [map join] in E. destruct (Hi a' _ _ Ha' E) as [-> E2]. split; [reflexivity|congruence].
    + exfalso. change (join !", " (map f (a' :: b' :: l'))) with (f a' ++ !", " ++ join !", " (map f (b' :: l'))) in E. change (join !", " (map f [a])) with (f a) in E. rewrite <- app_assoc in E.
      destruct (Hi a' _ _ Ha' E) as [_ E2]. cbn in E2. congruence.
    + exfalso. change (join !", " (map f (a :: b :: l))) with (f a ++ !", " ++ join !", " (map f (b :: l))) in E. change (join !", " (map f [a'])) with (f a') in E. rewrite <- app_assoc in E.
      destruct (Hi a' _ _ Ha' E) as [_ E2]. cbn in E2. congruence.
    + change (join !", " (map f (a :: b :: l))) with (f a ++ !", " ++ join !", " (map f (b :: l))) in E.
      change (join !", " (map f (a' :: b' :: l'))) with (f a' ++ !", " ++ join !", " (map f (b' :: l'))) in E. rewrite <- !app_assoc in E.
      destruct (Hi a' _ _ Ha' E) as [-> E2]. apply app_inv_head in E2. destruct (IH HO2 HI2 (b' :: l') x x' HO3 E2) as [E3 ->]. split; [now rewrite E3|reflexivity].
Qed.
Lemma starts_not q : starts q -> q <> 93%N /\ q <> 125%N.
Proof. unfold starts. cbn [In]. lia. Qed.
Lemma rval_inj : forall v, plain v -> forall v' x x', plain v' -> rval v ++ x = rval v' ++ x' -> v = v' /\ x = x'.
Proof.
  assert (HL : forall l, Forall plain l -> Forall (fun v => plain v -> forall v' x x', plain v' -> rval v ++ x = rval v' ++ x' -> v = v' /\ x = x') l ->
    forall l' x x', Forall plain l' -> rval (RList l) ++ x = rval (RList l') ++ x' -> l = l' /\ x = x').
  { intros l Hl IH l' x x' Hl' E. cbn [rval] in E. rewrite <- !app_assoc in E. cbn [app] in E. injection E as E.
    apply (join_inj rval plain 93%N) with (l := l) in E; try assumption; [easy| |].
    - intros a Ha. destruct (rval_head a Ha) as (q & r & Hq & Hs). exists q, r. split; [exact Hq|]. now apply starts_not in Hs.
    - clear -Hl IH. induction Hl as [|a l Ha Hl IH2]; [constructor|]. inversion_clear IH. constructor; [now apply H|now apply IH2]. }
  induction v as [p| |l IH|a b c] using rv_all; intros H v' x x' H' E; inversion H; subst.
  - inversion H' as [p' Hp'| |l' Hl']; subst.
    + destruct (rpy_inj p p' x x' ltac:(assumption) Hp' E) as [-> ->]. now split.
    + exfalso. cbn [rval] in E. destruct (rpy_head p) as (q & r & Hr & Hq). rewrite Hr in E. cbn in E. assert (q = 78%N) by congruence. lia.
    + exfalso. cbn [rval] in E. destruct (rpy_head p) as (q & r & Hr & Hq). rewrite Hr in E. cbn in E. assert (q = 91%N) by congruence. lia.
  - inversion H' as [p' Hp'| |l' Hl']; subst.
    + exfalso. cbn [rval] in E. destruct (rpy_head p') as (q & r & Hr & Hq). rewrite Hr in E. cbn in E. assert (q = 78%N) by congruence. lia.
    + cbn [rval] in E. apply app_inv_head in E. now split.
    + exfalso. cbn in E. congruence.
  - inversion H' as [p' Hp'| |l' Hl']; subst.
    + exfalso. cbn [rval] in E. destruct (rpy_head p') as (q & r & Hr & Hq). rewrite Hr in E. cbn in E. assert (q = 91%N) by congruence. lia.
    + exfalso. cbn in E. congruence.
    + destruct (HL l ltac:(assumption) IH l' x x' Hl' E) as [-> ->]. now split.
Qed.
Lemma colon_split (a a' x x' : str) : ~ In 58%N a -> ~ In 58%N a' -> a ++ 58%N :: x = a' ++ 58%N :: x' -> a = a' /\ x = x'.
Proof.
  revert a'. induction a as [|c a IH]; intros [|c' a'] H H' E; cbn [app] in E.
  - split; [reflexivity|congruence].
  - exfalso. apply H'. left. congruence.
  - exfalso. apply H. left. congruence.
  - destruct (IH a') as [-> ->]; [intros Hi; apply H; now right|intros Hi; apply H'; now right|congruence|]. split; [f_equal; congruence|reflexivity].
Qed.

(** dictionaries that print alike are alike *)
Theorem C151_tells :
  forall cls cls' d d', ~ In 58%N cls -> ~ In 58%N cls' -> Forall plain_item d -> Forall plain_item d' ->
    mv_repr cls d = mv_repr cls' d' -> cls = cls' /\ d = d'.
Proof.
  intros cls cls' d d' Hc Hc' Hd Hd' E. unfold mv_repr in E. cbn [app] in E. injection E as E.
  apply colon_split in E as [-> E]; [|assumption|assumption]. split; [reflexivity|]. injection E as E.
  rewrite <- !app_assoc in E. cbn [app] in E.
  apply (join_inj ritem plain_item 125%N) with (l := d) in E; try assumption; [now destruct E|easy| |].
  - intros [k l] _. unfold ritem. cbn [fst snd]. destruct (rpy_head k) as (q & r & -> & Hq). eexists _, _. split; [reflexivity|]. lia.
  - eapply Forall_impl; [|exact Hd]. intros [k l] [Hk Hl] [k' l'] x x' [Hk' Hl'] E2. unfold ritem in E2. cbn [fst snd] in *. rewrite <- !app_assoc in E2.
    destruct (rpy_inj k k' _ _ Hk Hk' E2) as [-> E3]. apply app_inv_head in E3.
    destruct (rval_inj (RList l) (pl_list l Hl) (RList l') x x' (pl_list l' Hl') E3) as [E4 ->]. split; [congruence|reflexivity].
Qed.
Print Assumptions C151_tells.

(** and they print in one line of printable ASCII *)
Lemma printable_app a b : printable a -> printable b -> printable (a ++ b).
Proof. intros H1 H2 c Hc. apply in_app_or in Hc as [Hc|Hc]; auto. Qed.
Lemma rhex_print d : (d < 16)%N -> (32 <= rhex d < 127)%N.
Proof. unfold rhex. destruct (N.ltb d 10) eqn:E; lia. Qed.
Lemma rhexs_print n : forall c, printable (rhexs n c).
Proof.
  induction n as [|n IH]; intros c; [intros d []|]. cbn [rhexs]. apply printable_app; [apply IH|]. intros d [<-|[]].
  apply rhex_print, N.mod_lt. discriminate.
Qed.
Lemma lit_print a : forallb (fun c => N.leb 32 c && N.ltb c 127) a = true -> printable a.
Proof. intros H c Hc. rewrite forallb_forall in H. specialize (H c Hc). lia. Qed.
Lemma rchar_print q c : quote_mark q -> printable (rchar q c).
Proof.
  intros Hq. unfold rchar. destruct (N.eqb c q || N.eqb c 92) eqn:E1.
  { intros d [<-|[<-|[]]]; unfold quote_mark in Hq; lia. }
  destruct (N.eqb c 9); [now apply lit_print|]. destruct (N.eqb c 10); [now apply lit_print|]. destruct (N.eqb c 13); [now apply lit_print|].
  destruct (N.leb 32 c && N.ltb c 127) eqn:E2; [intros d [<-|[]]; lia|].
  destruct (N.ltb c 256); [|destruct (N.ltb c 65536)]; (apply printable_app; [now apply lit_print|apply rhexs_print]).
Qed.
Lemma rtext_print s : printable (rtext s).
Proof.
  unfold rtext. cbv zeta. pose proof (rquote_mark s) as Hq. assert (H : printable [rquote s]) by (intros d [<-|[]]; unfold quote_mark in Hq; lia).
  apply printable_app; [exact H|]. apply printable_app; [|exact H]. intros c Hc. apply in_flat_map in Hc as (d & _ & Hc). now apply (rchar_print (rquote s) d Hq).
Qed.
Lemma rpy_print p : printable (rpy p).
Proof. destruct p as [s|s]; cbn [rpy]; [apply rtext_print|]. apply (printable_app [117%N]); [now apply lit_print|apply rtext_print]. Qed.
Lemma join_print l : Forall printable l -> printable (join !", " l).
Proof.
  induction 1 as [|a l Ha Hl IH]; [intros c []|]. destruct l as [|b l]; [exact Ha|].
  change (join !", " (a :: b :: l)) with (a ++ !", " ++ join !", " (b :: l)). apply printable_app; [exact Ha|]. apply printable_app; [now apply lit_print|exact IH].
Qed.
Lemma rval_print : forall v, plain v -> printable (rval v).
Proof.
  induction v as [p| |l IH|a b c] using rv_all; intros H; inversion H; subst; cbn [rval].
  - apply rpy_print.
  - now apply lit_print.
  - apply printable_app; [now apply lit_print|]. apply printable_app; [|now apply lit_print]. apply join_print.
    apply Forall_map. rewrite Forall_forall in *. auto.
Qed.
Theorem C151_one_line :
  forall cls d, printable cls -> Forall plain_item d -> printable (mv_repr cls d).
Proof.
  intros cls d Hc Hd. unfold mv_repr. repeat (apply printable_app; [first [exact Hc|now apply lit_print|idtac]|]); try now apply lit_print.
  repeat (apply printable_app; [first [now apply lit_print|idtac]|]); try now apply lit_print.
  apply join_print, Forall_map. eapply Forall_impl; [|exact Hd]. intros [k l] [Hk Hl]. unfold ritem. cbn [fst snd] in *.
  apply printable_app; [apply rpy_print|]. apply printable_app; [now apply lit_print|]. apply rval_print. now constructor.
Qed.
Print Assumptions C151_one_line.

(** the dictionaries of MVDModel.v *)
Fixpoint val_bytes (v : val) : Prop :=
  match v with VAtom s => forall c, In c s -> (c < 256)%N | VNone => True | VList l => (fix go l := match l with [] => True | x :: r => val_bytes x /\ go r end) l end.
Definition mvd_bytes (h : heap) (d : mvd) : Prop :=
  forall k l, In (k, l) (mv_lists h d) -> (forall c, In c k -> (c < 256)%N) /\ Forall val_bytes l.
Fixpoint val_all (P : val -> Prop) (H1 : forall s, P (VAtom s)) (H2 : P VNone) (H3 : forall l, Forall P l -> P (VList l)) (v : val) : P v :=
  match v with
  | VAtom s => H1 s
  | VNone => H2
  | VList l => H3 l ((fix go l : Forall P l := match l with [] => Forall_nil P | x :: r => Forall_cons x (val_all P H1 H2 H3 x) (go r) end) l)
  end.
Lemma rv_of_plain : forall v, val_bytes v -> plain (rv_of v).
Proof.
  induction v as [s| |l IH] using val_all; intros H; cbn [rv_of].
  - constructor. exact H.
  - constructor.
  - constructor. apply Forall_map. cbn [val_bytes] in H. induction IH as [|a l Ha IH IH2]; [constructor|]. destruct H as [H1 H2]. constructor; [now apply Ha|now apply IH2].
Qed.
Lemma map_same {A B} (f : A -> B) : forall l l', Forall (fun a => forall b, f a = f b -> a = b) l -> map f l = map f l' -> l = l'.
Proof.
  induction l as [|a l IH]; intros [|b l'] H E; try discriminate E; [reflexivity|]. cbn [map] in E. inversion_clear H as [|? ? Ha Hl].
  f_equal; [apply Ha; congruence|apply IH; [exact Hl|congruence]].
Qed.
Lemma rv_of_inj : forall v v', rv_of v = rv_of v' -> v = v'.
Proof.
  induction v as [s| |l IH] using val_all; intros [s'| |l'] E; cbn [rv_of] in E; try discriminate E; [congruence|reflexivity|].
  f_equal. apply (map_same rv_of l l' IH). congruence.
Qed.
Theorem C151_multivaluedict :
  forall h d h' d', mvd_bytes h d -> mvd_bytes h' d' -> mvd_repr h d = mvd_repr h' d' <-> mv_lists h d = mv_lists h' d'.
Proof.
  intros h d h' d' H H'. split; [|unfold mvd_repr; now intros ->]. unfold mvd_repr. intros E.
  assert (HP : forall h d, mvd_bytes h d -> Forall plain_item (map (fun i => (PB (fst i), map rv_of (snd i))) (mv_lists h d))).
  { clear. intros h d H. apply Forall_map, Forall_forall. intros [k l] Hin. destruct (H k l Hin) as [Hk Hl]. split; [exact Hk|]. cbn [snd]. apply Forall_map.
    eapply Forall_impl; [|exact Hl]. exact rv_of_plain. }
  apply C151_tells in E as [_ E]; [| | |now apply HP|now apply HP].
  - apply (map_same (fun i : str * list val => (PB (fst i), map rv_of (snd i)))) in E; [exact E|]. apply Forall_forall. intros [k l] _ [k' l'] E2. cbn [fst snd] in E2.
    assert (k = k') as <- by congruence. f_equal. apply (map_same rv_of); [|congruence]. apply Forall_forall. intros v _ v'. apply rv_of_inj.
  - intros Hin. cbn in Hin. repeat (destruct Hin as [Hin|Hin]; [discriminate Hin|]). exact Hin.
  - intros Hin. cbn in Hin. repeat (destruct Hin as [Hin|Hin]; [discriminate Hin|]). exact Hin.
Qed.
Print Assumptions C151_multivaluedict.

(** ** FILES: the names of uploaded files are printed as they are *)
Definition files_repr (files : dict (list ufile)) : str :=
  mv_repr !"MultiValueDict" (map (fun i => (PB (fst i), map (fun f => RFile (match uf_kind f with InMemory _ => !"InMemoryUploadedFile" | Temporary _ => !"TemporaryUploadedFile" end) (uf_name f) (uf_ctype f)) (snd i))) files).
(** two files print like one with a suitable name *)
Theorem C151_two_files_refuted :
  forall cls k a b ta tb, mv_repr cls [(k, [RFile !"InMemoryUploadedFile" a ta; RFile !"InMemoryUploadedFile" b tb])] =
    mv_repr cls [(k, [RFile !"InMemoryUploadedFile" (a ++ !" (" ++ ta ++ !")>, <InMemoryUploadedFile: " ++ b) tb])].
Proof.
  intros. unfold mv_repr, ritem. cbn [map fst snd rval join]. unfold upload_repr. rewrite <- !app_assoc. reflexivity.
Qed.
Print Assumptions C151_two_files_refuted.
(** such a name, and one with a line feed, can be sent *)
Theorem C151_sent_refuted :
  exists ps1 ps2 ps3 p1 p2 p3 f1 f2 f3,
    ex_parse ex_ms (render_form !"--X" ps1) = Ok (p1, f1) /\ ex_parse ex_ms (render_form !"--X" ps2) = Ok (p2, f2) /\
    ex_parse ex_ms (render_form !"--X" ps3) = Ok (p3, f3) /\
    length (getl !"f" f1) = 2 /\ length (getl !"f" f2) = 1 /\ files_repr f1 = files_repr f2 /\ In 10%N (files_repr f3).
Proof.
  exists [mkPart !"f" (Some !"a") None false !"1" !"1"; mkPart !"f" (Some !"b") None false !"2" !"2"],
    [mkPart !"f" (Some !"a ()>, <InMemoryUploadedFile: b") None false !"1" !"1"], [mkPart !"f" (Some !"a&#10;b") None false !"1" !"1"].
  do 6 eexists. split; [vm_compute; reflexivity|]. split; [vm_compute; reflexivity|]. split; [vm_compute; reflexivity|].
  split; [reflexivity|]. split; [reflexivity|]. split; [vm_compute; reflexivity|]. vm_compute. tauto.
Qed.
Print Assumptions C151_sent_refuted.
Example C151_case :
  mv_repr !"QueryDict" [(PU [97; 233; 8364; 128512]%N, [RStr (PB !"it's"); RStr (PB (!"'" ++ [34; 10; 200]%N)); RNone; RList []]); (PB [], [])] =
    !"<QueryDict: {u'a\xe9\u20ac\U0001f600': [""it's"", '\'""\n\xc8', None, []], '': []}>" /\
  Forall plain_item [(PU [97; 233; 8364; 128512]%N, [RStr (PB !"it's"); RStr (PB (!"'" ++ [34; 10; 200]%N)); RNone; RList []]); (PB [], [])].
Proof.
  split; [vm_compute; reflexivity|]. repeat constructor; cbn; intros c Hc; repeat (destruct Hc as [<-|Hc]; [reflexivity|]); destruct Hc.
Qed.
