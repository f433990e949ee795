(** * Proofs about base64 *)
From Coq Require Import ZifyN ZifyNat.
From Verif Require Import Py Spec PyFacts Base64Model.

Lemma b64val_char v : (v < 64)%N -> b64val (b64char v) = Some v /\ b64char v <> pad.
Proof.
  intros H. unfold b64char, b64val, is_upper, is_lower, is_digit, pad.
  destruct (N.ltb_spec v 26).
  { replace (N.leb 65 (65 + v)) with true by (symmetry; apply N.leb_le; lia).
    replace (N.leb (65 + v) 90) with true by (symmetry; apply N.leb_le; lia).
    cbn [andb]. split; [f_equal|]; lia. }
  destruct (N.ltb_spec v 52).
  { replace (N.leb (71 + v) 90) with false by (symmetry; apply N.leb_gt; lia).
    replace (N.leb 97 (71 + v)) with true by (symmetry; apply N.leb_le; lia).
    replace (N.leb (71 + v) 122) with true by (symmetry; apply N.leb_le; lia).
    rewrite andb_false_r. cbn [andb]. split; [f_equal|]; lia. }
  destruct (N.ltb_spec v 62).
  { replace (N.leb 65 (v - 4)) with false by (symmetry; apply N.leb_gt; lia).
    replace (N.leb 97 (v - 4)) with false by (symmetry; apply N.leb_gt; lia).
    replace (N.leb 48 (v - 4)) with true by (symmetry; apply N.leb_le; lia).
    replace (N.leb (v - 4) 57) with true by (symmetry; apply N.leb_le; lia).
    cbn [andb]. split; [f_equal|]; lia. }
  destruct (N.eqb_spec v 62) as [->|]; [split; [reflexivity|easy]|].
  assert (v = 63)%N as -> by lia. split; [reflexivity|easy].
Qed.

Lemma a2b_val c v t st : b64val c = Some v -> c <> pad ->
  a2b_loop (c :: t) st = let (out, st') := b64_shift v st in
                         let (rest, lb) := a2b_loop t st' in (out ++ rest, lb).
Proof. intros H1 H2. cbn. apply N.eqb_neq in H2. now rewrite H2, H1. Qed.

Lemma list_ind3 (P : str -> Prop) : P [] -> (forall a, P [a]) -> (forall a b, P [a; b]) ->
  (forall a b c t, P t -> P (a :: b :: c :: t)) -> forall s, P s.
Proof. intros H0 H1 H2 H3. fix IH 1. intros [|a [|b [|c t]]]; [exact H0|apply H1|apply H2|apply H3, IH]. Qed.
Lemma list_ind4 (P : str -> Prop) : P [] -> (forall a, P [a]) -> (forall a b, P [a; b]) ->
  (forall a b c, P [a; b; c]) ->
  (forall a b c d t, P t -> P (a :: b :: c :: d :: t)) -> forall s, P s.
Proof. intros H0 H1 H2 H3 H4. fix IH 1. intros [|a [|b [|c [|d t]]]]; [exact H0|apply H1|apply H2|apply H3|apply H4, IH]. Qed.

Lemma cons_eq (a b : N) s t : a = b -> s = t -> a :: s = b :: t.
Proof. now intros -> ->. Qed.
Lemma pair_eq {A B} (a a' : A) (b b' : B) : a = a' -> b = b' -> (a, b) = (a', b').
Proof. now intros -> ->. Qed.
Ltac bytes_eq := repeat (apply pair_eq || apply cons_eq); try reflexivity.

Ltac Zify.zify_post_hook ::= Z.div_mod_to_equations.

(** four characters at a quad boundary give three bytes and return to the boundary *)
Lemma a2b_quad i j k l t : (i < 64)%N -> (j < 64)%N -> (k < 64)%N -> (l < 64)%N ->
  a2b_loop (b64char i :: b64char j :: b64char k :: b64char l :: t) b64_init =
  let (rest, lb) := a2b_loop t b64_init in
  ([i * 4 + j / 16; (j mod 16) * 16 + k / 4; (k mod 4) * 64 + l]%N ++ rest, lb).
Proof.
  intros Hi Hj Hk Hl.
  destruct (b64val_char i Hi) as [Vi Pi], (b64val_char j Hj) as [Vj Pj],
    (b64val_char k Hk) as [Vk Pk], (b64val_char l Hl) as [Vl Pl].
  rewrite (a2b_val _ i) by easy.
  change (b64_shift i b64_init) with (@nil N, mkB64 1 i 6). cbv iota beta.
  rewrite (a2b_val _ j) by easy.
  change (b64_shift j (mkB64 1 i 6)) with ([((i * 64 + j) / 16) mod 256]%N, mkB64 2 ((i * 64 + j) mod 16)%N 4).
  cbv iota beta. rewrite (a2b_val _ k) by easy.
  set (w := ((i * 64 + j) mod 16)%N).
  change (b64_shift k (mkB64 2 w 4)) with ([((w * 64 + k) / 4) mod 256]%N, mkB64 3 ((w * 64 + k) mod 4)%N 2).
  cbv iota beta. rewrite (a2b_val _ l) by easy.
  set (x := ((w * 64 + k) mod 4)%N).
  change (b64_shift l (mkB64 3 x 2)) with ([((x * 64 + l) / 1) mod 256]%N, mkB64 0 ((x * 64 + l) mod 1)%N 0).
  cbv iota beta. rewrite (N.mod_1_r (x * 64 + l)). change (mkB64 0 0 0) with b64_init.
  destruct (a2b_loop t b64_init) as [rest lb]. cbn [app].
  assert (Hw : w = (j mod 16)%N) by (subst w; lia). clearbody w.
  assert (Hx : x = (k mod 4)%N) by (subst x; lia). clearbody x.
  subst x w. clear - Hi Hj Hk Hl. bytes_eq; lia.
Qed.

Theorem b64_roundtrip_loop : forall s, bytes_only s = true -> a2b_loop (b64encode s) b64_init = (s, 0%N).
Proof.
  induction s as [|a|a b|a b c t IH] using list_ind3; intros Hb.
  - reflexivity.
  - cbn in Hb. apply andb_true_iff in Hb as [Ha _]. apply N.ltb_lt in Ha. cbn [b64encode].
    destruct (b64val_char (a / 4)) as [V1 P1]; [lia|].
    destruct (b64val_char (a mod 4 * 16)) as [V2 P2]; [lia|].
    rewrite (a2b_val _ (a / 4)) by easy.
    change (b64_shift (a / 4) b64_init) with (@nil N, mkB64 1 (a / 4) 6). cbv iota beta.
    rewrite (a2b_val _ (a mod 4 * 16)) by easy.
    change (b64_shift (a mod 4 * 16) (mkB64 1 (a / 4) 6)) with
      ([(((a / 4) * 64 + (a mod 4 * 16)) / 16) mod 256]%N, mkB64 2 (((a / 4) * 64 + (a mod 4 * 16)) mod 16)%N 4).
    cbv iota beta. cbn [a2b_loop next_valid b_quad]. rewrite !N.eqb_refl. cbn [Nat.ltb Nat.leb orb Nat.eqb andb negb app]. bytes_eq. lia.
  - cbn in Hb. apply andb_true_iff in Hb as [Ha Hb]. apply andb_true_iff in Hb as [Hb _].
    apply N.ltb_lt in Ha, Hb. cbn [b64encode].
    destruct (b64val_char (a / 4)) as [V1 P1]; [lia|].
    destruct (b64val_char (a mod 4 * 16 + b / 16)) as [V2 P2]; [lia|].
    destruct (b64val_char (b mod 16 * 4)) as [V3 P3]; [lia|].
    rewrite (a2b_val _ (a / 4)) by easy.
    change (b64_shift (a / 4) b64_init) with (@nil N, mkB64 1 (a / 4) 6). cbv iota beta.
    rewrite (a2b_val _ (a mod 4 * 16 + b / 16)) by easy.
    set (y := (a mod 4 * 16 + b / 16)%N). set (x := (a / 4)%N).
    change (b64_shift y (mkB64 1 x 6)) with ([((x * 64 + y) / 16) mod 256]%N, mkB64 2 ((x * 64 + y) mod 16)%N 4).
    cbv iota beta. rewrite (a2b_val _ (b mod 16 * 4)) by easy.
    set (w := ((x * 64 + y) mod 16)%N). set (z := (b mod 16 * 4)%N).
    change (b64_shift z (mkB64 2 w 4)) with ([((w * 64 + z) / 4) mod 256]%N, mkB64 3 ((w * 64 + z) mod 4)%N 2).
    cbv iota beta. cbn [a2b_loop b_quad]. rewrite !N.eqb_refl. cbn [Nat.ltb Nat.leb orb Nat.eqb andb negb app]. subst x y z w. bytes_eq; lia.
  - cbn in Hb. apply andb_true_iff in Hb as [Ha Hb]. apply andb_true_iff in Hb as [Hb Hc].
    apply andb_true_iff in Hc as [Hc Ht]. apply N.ltb_lt in Ha, Hb, Hc. cbn [b64encode].
    rewrite a2b_quad by lia. rewrite (IH Ht). cbn [app]. bytes_eq; lia.
Qed.
Theorem b64_roundtrip s : bytes_only s = true -> b64decode (b64encode s) = Ok s.
Proof. intros H. unfold b64decode. now rewrite b64_roundtrip_loop. Qed.

(** ** URL-safe form *)
Definition is_b64 (c : char) : bool := match b64val c with Some _ => true | None => false end.
Lemma b64char_is v : (v < 64)%N -> is_b64 (b64char v) = true.
Proof. intros H. unfold is_b64. now destruct (b64val_char v H) as [-> _]. Qed.

(** the encoding is alphabet characters followed by at most two '=' *)
Lemma b64encode_shape : forall s, bytes_only s = true -> exists body k,
  b64encode s = body ++ repeat pad k /\ forallb is_b64 body = true /\ k <= 2 /\
  (length body + k) mod 4 = 0 /\ (k = 0 \/ length body mod 4 = 4 - k).
Proof.
  induction s as [|a|a b|a b c t IH] using list_ind3; intros Hb.
  - now exists [], 0; repeat split; [lia|left].
  - cbn in Hb. apply andb_true_iff in Hb as [Ha _]. apply N.ltb_lt in Ha.
    exists [b64char (a / 4); b64char ((a mod 4) * 16)], 2. repeat split; try lia.
    + cbn. rewrite !b64char_is by lia. reflexivity.
    + now right.
  - cbn in Hb. apply andb_true_iff in Hb as [Ha Hb]. apply andb_true_iff in Hb as [Hb _].
    apply N.ltb_lt in Ha, Hb.
    exists [b64char (a / 4); b64char ((a mod 4) * 16 + b / 16); b64char ((b mod 16) * 4)], 1. repeat split; try lia.
    + cbn. rewrite !b64char_is by lia. reflexivity.
    + now right.
  - cbn in Hb. apply andb_true_iff in Hb as [Ha Hb]. apply andb_true_iff in Hb as [Hb Hc].
    apply andb_true_iff in Hc as [Hc Ht]. apply N.ltb_lt in Ha, Hb, Hc.
    destruct (IH Ht) as (body & k & H1 & H2 & H3 & H4 & H5).
    exists (b64char (a / 4) :: b64char ((a mod 4) * 16 + b / 16)
      :: b64char ((b mod 16) * 4 + c / 64) :: b64char (c mod 64) :: body), k.
    repeat split; try lia.
    + cbn [b64encode app]. now rewrite H1.
    + cbn [forallb]. rewrite !b64char_is by lia. exact H2.
    + cbn [length]. replace (S (S (S (S (length body)))) + k) with ((length body + k) + 1 * 4) by lia.
      rewrite Nat.mod_add by lia. exact H4.
    + destruct H5 as [H5|H5]; [now left|right]. cbn [length].
      replace (S (S (S (S (length body))))) with (length body + 1 * 4) by lia.
      rewrite Nat.mod_add by lia. exact H5.
Qed.

Lemma is_b64_cases c : is_b64 c = true ->
  (is_upper c || is_lower c || is_digit c || N.eqb c 43 || N.eqb c 47) = true.
Proof.
  unfold is_b64, b64val. destruct (is_upper c), (is_lower c), (is_digit c), (N.eqb c 43), (N.eqb c 47); easy.
Qed.
Definition is_urlsafe (c : char) : bool := is_alnum c || N.eqb c 45 || N.eqb c 95.
Lemma to_urlsafe_safe c : is_b64 c = true -> is_urlsafe (to_urlsafe c) = true.
Proof.
  intros H. apply is_b64_cases in H. unfold to_urlsafe. destruct (N.eqb_spec c 43); [easy|].
  destruct (N.eqb_spec c 47); [easy|]. rewrite !orb_false_r in H. unfold is_urlsafe, is_alnum, is_alpha. now rewrite H.
Qed.
Lemma of_to_urlsafe c : is_b64 c = true -> of_urlsafe (to_urlsafe c) = c.
Proof.
  intros H. apply is_b64_cases in H.
  destruct (N.eq_dec c 43) as [->|H1]; [reflexivity|]. destruct (N.eq_dec c 47) as [->|H2]; [reflexivity|].
  destruct (N.eq_dec c 45) as [->|H3]; [discriminate H|]. destruct (N.eq_dec c 95) as [->|H4]; [discriminate H|].
  apply N.eqb_neq in H1, H2, H3, H4. unfold to_urlsafe. rewrite H1, H2. unfold of_urlsafe. now rewrite H3, H4.
Qed.

Lemma rstrip_repeat_pad body k : (forall c, In c body -> c <> pad /\ c <> LF) ->
  rstrip_by (fun c => N.eqb c LF || N.eqb c pad) (body ++ repeat pad k) = body.
Proof.
  intros H. unfold rstrip_by. rewrite rev_app_distr.
  assert (HR : rev (repeat pad k) = repeat pad k).
  { induction k; [easy|]. cbn. rewrite IHk. clear IHk. induction k; [easy|]. cbn. now rewrite IHk. }
  rewrite HR. rewrite lstrip_by_app_ws.
  - rewrite lstrip_by_id; [apply rev_involutive|].
    destruct (rev body) as [|x r] eqn:E; [easy|].
    destruct (H x) as [H1 H2]; [apply in_rev; rewrite E; now left|].
    apply N.eqb_neq in H1, H2. now rewrite H1, H2.
  - apply forallb_forall. intros x Hx. apply repeat_spec in Hx. now subst.
Qed.

Lemma map_repeat {A B} (f : A -> B) x n : map f (repeat x n) = repeat (f x) n.
Proof. induction n; cbn; [easy|now rewrite IHn]. Qed.

Theorem urlsafe_encode_spec s : bytes_only s = true -> exists body k,
  b64encode s = body ++ repeat pad k /\ urlsafe_base64_encode s = map to_urlsafe body /\
  forallb is_b64 body = true /\ k <= 2 /\ (k = 0 \/ length body mod 4 = 4 - k) /\ (length body + k) mod 4 = 0.
Proof.
  intros Hb. destruct (b64encode_shape s Hb) as (body & k & H1 & H2 & H3 & H4 & H5).
  exists body, k. repeat (split; [easy|]). split; [|easy].
  unfold urlsafe_base64_encode. rewrite H1, map_app, map_repeat. change (to_urlsafe pad) with pad.
  apply rstrip_repeat_pad. intros c Hc. apply in_map_iff in Hc as (x & <- & Hx).
  rewrite forallb_forall in H2. apply H2, to_urlsafe_safe in Hx. split; intros Hcc; rewrite Hcc in Hx; easy.
Qed.

(** extra '=' after a complete text are harmless *)
Lemma a2b_pads_end : forall n q c b, (q = 0 \/ q = 1) -> a2b_loop (repeat pad n) (mkB64 q c b) = ([], b).
Proof.
  induction n as [|n IH]; intros q c b Hq; [easy|]. cbn [repeat a2b_loop b_quad]. rewrite N.eqb_refl.
  replace (Nat.ltb q 2) with true by (symmetry; apply Nat.ltb_lt; lia). cbn [orb]. now apply IH.
Qed.

(** decoding whole quads and then something else *)
Lemma a2b_quads_app : forall body t : str, forallb is_b64 body = true -> length body mod 4 = 0 ->
  a2b_loop (body ++ t) b64_init =
    (fst (a2b_loop body b64_init) ++ fst (a2b_loop t b64_init), snd (a2b_loop t b64_init))
  /\ snd (a2b_loop body b64_init) = 0%N.
Proof.
  induction body as [|x0|x0 x1|x0 x1 x2|x0 x1 x2 x3 body IH] using list_ind4; intros t HF HL;
    try (cbn in HL; discriminate HL).
  - cbn. now destruct (a2b_loop t b64_init).
  - cbn [forallb] in HF. rewrite !andb_true_iff in HF. destruct HF as (F0 & F1 & F2 & F3 & HF).
    assert (HL' : length body mod 4 = 0).
    { cbn [length] in HL. replace (S (S (S (S (length body))))) with (length body + 1 * 4) in HL by lia.
      now rewrite Nat.mod_add in HL by lia. }
    assert (HV : forall x, is_b64 x = true -> exists v, (v < 64)%N /\ x = b64char v).
    { clear. intros x H. pose proof (is_b64_cases x H) as HC.
      unfold is_upper, is_lower, is_digit in HC.
      rewrite !orb_true_iff, !andb_true_iff, !N.leb_le, !N.eqb_eq in HC.
      assert (Hcase : (65 <= x <= 90 \/ 97 <= x <= 122 \/ 48 <= x <= 57 \/ x = 43 \/ x = 47)%N) by lia.
      unfold b64char.
      destruct Hcase as [Hx|[Hx|[Hx|[->| ->]]]].
      - exists (x - 65)%N. split; [lia|]. destruct (N.ltb_spec (x - 65) 26); lia.
      - exists (x - 71)%N. split; [lia|]. destruct (N.ltb_spec (x - 71) 26); [lia|].
        destruct (N.ltb_spec (x - 71) 52); lia.
      - exists (x + 4)%N. split; [lia|]. destruct (N.ltb_spec (x + 4) 26); [lia|].
        destruct (N.ltb_spec (x + 4) 52); [lia|]. destruct (N.ltb_spec (x + 4) 62); lia.
      - exists 62%N. now split.
      - exists 63%N. now split. }
    destruct (HV x0 F0) as (v0 & B0 & ->), (HV x1 F1) as (v1 & B1 & ->),
             (HV x2 F2) as (v2 & B2 & ->), (HV x3 F3) as (v3 & B3 & ->).
    cbn [app]. rewrite !a2b_quad by easy. destruct (IH t HF HL') as [E1 E2]. rewrite E1.
    destruct (a2b_loop body b64_init) as [ob lb]. cbn [fst snd] in *. rewrite <- app_assoc. easy.
Qed.

Theorem urlsafe_roundtrip s : bytes_only s = true ->
  urlsafe_base64_decode (urlsafe_base64_encode s) = Ok s.
Proof.
  intros Hb. destruct (urlsafe_encode_spec s Hb) as (body & k & H1 & H2 & H3 & H4 & H5 & H6).
  pose proof (b64_roundtrip_loop s Hb) as HR. rewrite H1 in HR.
  unfold urlsafe_base64_decode. rewrite H2, map_length.
  assert (HA : ascii_only (map to_urlsafe body) = true).
  { apply forallb_forall. intros c Hc. apply in_map_iff in Hc as (x & <- & Hx).
    rewrite forallb_forall in H3. apply H3, to_urlsafe_safe in Hx. unfold is_ascii. apply N.ltb_lt.
    unfold is_urlsafe, is_alnum, is_alpha, is_upper, is_lower, is_digit in Hx.
    rewrite !orb_true_iff, !andb_true_iff, !N.leb_le, !N.eqb_eq in Hx. lia. }
  rewrite HA. unfold b64decode. rewrite map_app, map_repeat. change (of_urlsafe pad) with pad.
  assert (HB : map of_urlsafe (map to_urlsafe body) = body).
  { rewrite map_map. rewrite <- (map_id body) at 2. apply map_ext_in. intros c Hc.
    apply of_to_urlsafe. rewrite forallb_forall in H3. now apply H3. }
  rewrite HB.
  (* the number of '=' added back is 0, 2 or 3 while 0, 2 or 1 are needed *)
  destruct H5 as [->|Hk].
  - rewrite Nat.add_0_r in H6. rewrite H6. cbn [repeat]. rewrite app_nil_r in HR |- *. now rewrite HR.
  - rewrite Hk. destruct k as [|[|[|k]]]; [| | |lia].
    + (* k = 0 *) rewrite Nat.add_0_r in H6. lia.
    + (* k = 1 : three '=' *)
      replace (body ++ repeat pad (4 - 1)) with ((body ++ repeat pad 1) ++ repeat pad 2) by now rewrite <- app_assoc.
      set (q := firstn (length body / 4 * 4) body). set (r := skipn (length body / 4 * 4) body).
      assert (Hq : length q mod 4 = 0 /\ length r = 3).
      { unfold q, r. rewrite firstn_length, skipn_length.
        pose proof (Nat.div_mod (length body) 4 ltac:(lia)) as HD.
        replace (Nat.min (length body / 4 * 4) (length body)) with (length body / 4 * 4) by lia.
        rewrite Nat.mod_mul by lia. lia. }
      assert (Hbody : body = q ++ r) by (symmetry; apply firstn_skipn).
      assert (HFq : forallb is_b64 q = true) by now apply forallb_firstn.
      assert (HFr : forallb is_b64 r = true) by now apply forallb_skipn.
      rewrite Hbody in HR |- *. rewrite <- app_assoc in HR. rewrite <- !app_assoc.
      destruct (a2b_quads_app q (r ++ repeat pad 1) HFq (proj1 Hq)) as [E1 _].
      destruct (a2b_quads_app q (r ++ repeat pad 1 ++ repeat pad 2) HFq (proj1 Hq)) as [E2 _].
      rewrite E1 in HR. rewrite E2. injection HR as <- HR2.
      assert (HE : a2b_loop (r ++ repeat pad 1 ++ repeat pad 2) b64_init = a2b_loop (r ++ repeat pad 1) b64_init).
      { destruct Hq as [_ Hr]. destruct r as [|r0 [|r1 [|r2 [|]]]]; try discriminate Hr.
        cbn [forallb] in HFr. rewrite !andb_true_iff in HFr. destruct HFr as (F0 & F1 & F2 & _).
        unfold is_b64 in F0, F1, F2.
        destruct (b64val r0) as [v0|] eqn:V0; [|easy]. destruct (b64val r1) as [v1|] eqn:V1; [|easy].
        destruct (b64val r2) as [v2|] eqn:V2; [|easy].
        assert (HP : forall c v, b64val c = Some v -> c <> pad) by (intros c v Hv ->; discriminate Hv).
        cbn [app]. do 2 rewrite (a2b_val r0 v0) by (easy || eapply HP; eassumption).
        destruct (b64_shift v0 b64_init) as [o0 s0] eqn:S0.
        do 2 rewrite (a2b_val r1 v1) by (easy || eapply HP; eassumption).
        destruct (b64_shift v1 s0) as [o1 s1] eqn:S1.
        do 2 rewrite (a2b_val r2 v2) by (easy || eapply HP; eassumption).
        destruct (b64_shift v2 s1) as [o2 s2] eqn:S2.
        assert (Hs2 : b_quad s2 = 3).
        { assert (HQ : forall v s o s', b64_shift v s = (o, s') -> b_quad s' = S (b_quad s) mod 4).
          { intros v st o st'. unfold b64_shift. destruct (N.leb 8 _); intros [= <- <-]; easy. }
          apply HQ in S0, S1, S2. cbn in S0. rewrite S0 in S1. rewrite S1 in S2. exact S2. }
        cbn [repeat app a2b_loop]. rewrite N.eqb_refl, Hs2. reflexivity. }
      rewrite HE. change (repeat pad 1) with [pad]. rewrite HR2. reflexivity.
    + (* k = 2 : two '=' *) change (repeat pad (4 - 2)) with (repeat pad 2). now rewrite HR.
Qed.
