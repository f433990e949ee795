(** * Which bytes of a part decide what it is (claims C23, C28) *)
From Coq Require Import Lia List.
From Verif Require Import Py PyFacts PyDict Spec CodecModel QueryModel Base64Model HeaderModel HeaderSpec HeaderFacts
  BoundaryModel BoundarySpec BoundaryFacts UploadModel MultipartModel MultipartSem MultipartFacts MultipartSpec
  UploadFacts MultipartInv BodySpec.

Lemma occurs_refl s : occurs s s.
Proof. exists [], []. now rewrite app_nil_r. Qed.
Lemma occurs_trans a b c : occurs a b -> occurs b c -> occurs a c.
Proof. intros (u & v & ->) (u' & v' & ->). exists (u' ++ u), (v ++ v'). now rewrite <- !app_assoc. Qed.
Lemma occurs_lower a b : occurs a b -> occurs (lower a) (lower b).
Proof. intros (u & v & ->). exists (lower u), (lower v). now rewrite !lower_app. Qed.
Lemma occurs_join sep x : forall l, In x l -> occurs x (join sep l).
Proof.
  induction l as [|y l IH]; [easy|]. intros [->|Hin].
  - destruct l as [|z l]; [cbn; apply occurs_refl|]. rewrite join_cons. exists [], (sep ++ join sep (z :: l)). easy.
  - destruct l as [|z l]; [easy|]. rewrite join_cons. destruct (IH Hin) as (u & v & E). exists (y ++ sep ++ u), v.
    rewrite E. now rewrite <- !app_assoc.
Qed.
Lemma occurs_strip_by f s : occurs (strip_by f s) s.
Proof. destruct (strip_by_spec f s) as (u & v & E & _). now exists u, v. Qed.
Lemma occurs_firstn n s : occurs (firstn n s) s.
Proof. exists [], (skipn n s). cbn. now rewrite firstn_skipn. Qed.
Lemma occurs_skipn n s : occurs (skipn n s) s.
Proof. exists (firstn n s), []. now rewrite app_nil_r, firstn_skipn. Qed.
Lemma occurs_In a b c : occurs a b -> In c a -> In c b.
Proof. intros (u & v & ->) H. apply in_or_app. right. apply in_or_app. now left. Qed.

(** the name and the value of a header are in its line *)
Lemma part_header_occurs reg line name x : part_header reg line = Ok (name, x) ->
  occurs (name ++ [mcolon] ++ fst x) (lower line).
Proof.
  unfold part_header, parse_header. rewrite parse_header_params_spec. pose proof (qsplit_nonnil false line) as HN.
  pose proof (qsplit_join line false) as HJ. destruct (qsplit false line) as [|k pl]; [easy|]. cbn [map].
  unfold decode_ascii. destruct (ascii_only (lower (strip k))); cbn [bind]; [|easy].
  destruct (parse_params reg (map strip pl) []) as [d|e]; cbn [bind fst snd]; [|easy].
  unfold split1. destruct (findc mcolon (lower (strip k))) as [i|] eqn:E; [|easy]. intros H. apply findc_Some in E as (Hi & _).
  assert (Hn : name = firstn i (lower (strip k))) by congruence.
  assert (Hx : fst x = skipn (S i) (lower (strip k))) by (destruct x; cbn [fst]; congruence). rewrite Hn, Hx. clear H.
  apply (occurs_trans _ (lower (strip k))).
  - exists [], []. cbn [app]. rewrite app_nil_r. exact Hi.
  - apply occurs_lower. apply (occurs_trans _ k); [apply occurs_strip_by|]. rewrite <- HJ. apply occurs_join. now left.
Qed.

Lemma header_meta_in reg : forall lines ty out ty' m, header_meta reg lines ty out = Ok (ty', m) ->
  forall key x, dget key m = Some x -> dget key out = Some x \/ exists line, In line lines /\ part_header reg line = Ok (key, x).
Proof.
  induction lines as [|line lines IH]; intros ty out ty' m H key x HG; cbn [header_meta] in H.
  - injection H as <- <-. now left.
  - destruct (part_header reg line) as [[name [v ps]]|e] eqn:E.
    + destruct (IH _ _ _ _ H key x HG) as [HO|(l & Hl & HP)].
      * rewrite dget_dset in HO. destruct (seqb key name) eqn:EK; [|now left]. apply seqb_eq in EK. subst name.
        injection HO as <-. right. exists line. split; [now left|easy].
      * right. exists l. split; [now right|easy].
    + destruct (is_value_error e); [|easy].
      destruct (IH _ _ _ _ H key x HG) as [HO|(l & Hl & HP)]; [now left|]. right. exists l. split; [now right|easy].
Qed.

Lemma lines_occur t i line : In line (split crlf (firstn i t)) -> occurs line t.
Proof.
  intros H. apply (occurs_trans _ (firstn i t)); [|apply occurs_firstn].
  rewrite <- (split_join crlf (firstn i t)) by easy. now apply occurs_join.
Qed.

(** a part can only keep the parser running forever if it mentions base64 *)
Lemma b64_part_mentions reg name2cp t : b64_part reg name2cp t -> occurs !"base64" (lower t).
Proof.
  intros (ty & m & payload & i & HC & HA & _). unfold classify in HC.
  destruct (find crlfcrlf (firstn head_size t)) as [j|]; [|injection HC as <- <- <-; easy].
  destruct (header_meta reg (split crlf (firstn j t)) RAW []) as [[ty' m']|e] eqn:EH; cbn [bind fst snd] in HC; [|easy].
  assert (ty' = ty /\ m' = m) as [-> ->] by (injection HC; easy). clear HC.
  assert (HB : is_b64enc (tenc_of m) = true).
  { unfold part_action in HA. destruct (dget CDISP m) as [[v disp]|]; [|easy]. destruct (dget !"name" disp) as [raw|]; [|easy].
    destruct (to_native (pstrip raw)); cbn [bind] in HA; [|easy]. destruct ty; try easy.
    destruct (filename_of name2cp disp) as [[|c f]|e]; cbn [bind] in HA; try easy. now injection HA as _ <-. }
  unfold tenc_of in HB. destruct (dget !"content-transfer-encoding" m) as [x|] eqn:EX; [|easy]. cbn [option_map is_b64enc] in HB.
  apply seqb_eq in HB. destruct (header_meta_in _ _ _ _ _ _ EH _ _ EX) as [HO|(line & Hl & HP)]; [easy|].
  apply part_header_occurs in HP. rewrite <- HB. apply (occurs_trans _ (fst x)); [apply occurs_strip_by|].
  apply (occurs_trans _ (!"content-transfer-encoding" ++ [mcolon] ++ fst x)).
  { exists (!"content-transfer-encoding" ++ [mcolon]), []. now rewrite app_nil_r, <- app_assoc. }
  apply (occurs_trans _ _ _ HP). apply occurs_lower. now apply (lines_occur t j).
Qed.

(** ** Pieces that are ignored *)
Lemma parse_param_nostar reg p : ~ In 42%N p -> parse_param reg p <> Err LookupError.
Proof.
  intros H. unfold parse_param. destruct (findc hequal p) as [i|]; [|easy]. unfold decode_ascii.
  destruct (ascii_only (lower (strip (firstn i p)))); cbn [bind]; [|easy].
  assert (HE : endswith (lower (strip (firstn i p))) [hstar] = false).
  { destruct (endswith (lower (strip (firstn i p))) [hstar]) eqn:E; [|easy]. exfalso. apply H.
    assert (Hin : In 42%N (strip (firstn i p))).
    { revert E. unfold endswith. generalize (strip (firstn i p)). intros q. unfold lower. rewrite <- map_rev.
      rewrite (in_rev q). destruct (rev q) as [|x r]; [easy|]. cbn [map rev app prefixb]. intros E%andb_prop. destruct E as [E _].
      left. apply N.eqb_eq in E. unfold lowerc in E. change hstar with 42%N in E. destruct (N.leb 65 x && N.leb x 90) eqn:EU; [|easy].
      apply andb_prop in EU as [E1 E2]. apply N.leb_le in E1. lia. }
    apply strip_In in Hin. now apply (firstn_In i). }
  rewrite HE. cbn [andb bind]. easy.
Qed.
Lemma parse_header_nostar reg line : ~ In 42%N line -> parse_header reg line <> Err LookupError.
Proof.
  intros H. unfold parse_header. rewrite parse_header_params_spec. pose proof (qsplit_nonnil false line) as HN.
  pose proof (qsplit_join line false) as HJ. destruct (qsplit false line) as [|k pl]; [easy|]. cbn [map].
  unfold decode_ascii. destruct (ascii_only (lower (strip k))); cbn [bind]; [|easy].
  assert (HP : forall q, In q (map strip pl) -> ~ In 42%N q).
  { intros q (r & <- & Hr)%in_map_iff Hin. apply H. rewrite <- HJ.
    apply (occurs_In r); [apply occurs_join; now right|]. now apply strip_In. }
  assert (HG : forall l d, (forall q, In q l -> ~ In 42%N q) -> parse_params reg l d <> Err LookupError).
  { induction l as [|q l IH]; intros d HQ; cbn [parse_params]; [easy|].
    pose proof (parse_param_nostar reg q (HQ q (or_introl eq_refl))) as HX.
    destruct (parse_param reg q); cbn [bind]; [|intros E; now injection E as ->]. apply IH. intros r Hr. apply HQ. now right. }
  specialize (HG _ [] HP). destruct (parse_params reg (map strip pl) []); cbn [bind]; [easy|]. intros E. now injection E as ->.
Qed.

Lemma ignorable_item reg name2cp j : ignorable j -> item_of reg name2cp j KSkip.
Proof.
  intros [H1 H2]. unfold item_of, classify. destruct (find crlfcrlf (firstn head_size j)) as [i|]; [|reflexivity].
  assert (HG : forall lines out, (forall l, In l lines -> occurs l j) -> dget CDISP out = None ->
            exists m, header_meta reg lines RAW out = Ok (RAW, m) /\ dget CDISP m = None).
  { induction lines as [|line lines IH]; intros out HL HO; cbn [header_meta]; [now exists out|].
    assert (HL' : forall l, In l lines -> occurs l j) by (intros l Hl; apply HL; now right).
    destruct (part_header reg line) as [[name [v ps]]|e] eqn:E.
    - assert (HN : seqb name CDISP = false).
      { apply seqb_neq. intros ->. apply H1. apply part_header_occurs in E.
        apply (occurs_trans _ (CDISP ++ [mcolon] ++ v)); [exists [], ([mcolon] ++ v); reflexivity|].
        apply (occurs_trans _ _ _ E). apply occurs_lower. apply HL. now left. }
      rewrite HN. apply IH; [easy|]. rewrite dget_dset. destruct (seqb CDISP name) eqn:EK; [|easy].
      apply seqb_eq in EK. subst name. now rewrite seqb_refl in HN.
    - assert (HV : is_value_error e = true).
      { unfold part_header in E. destruct (parse_header reg line) as [h|e2] eqn:E2; cbn [bind] in E.
        - destruct (split1 mcolon (fst h)) as [[a b]|]; [easy|]. now injection E as <-.
        - injection E as <-. pose proof (parse_header_err _ _ _ E2) as Hin. cbn in Hin.
          destruct Hin as [<-|[<-|[<-|[]]]]; try easy. exfalso. apply (parse_header_nostar reg line); [|easy].
          intros Hin. apply H2. apply (occurs_In line); [apply HL; now left|easy]. }
      rewrite HV. now apply IH. }
  destruct (HG (split crlf (firstn i j)) [] (fun l => lines_occur j i l) eq_refl) as (m & -> & Hm).
  cbn [bind fst snd]. unfold part_action. now rewrite Hm.
Qed.

(** ** Exceptions of a whole parse *)
Lemma trim_eol_occurs u : occurs (trim_eol u) u.
Proof.
  unfold trim_eol. assert (HR : forall a r, rev u = a ++ r -> occurs (rev r) u).
  { intros a r E. exists [], (rev a). cbn. rewrite <- rev_app_distr, <- E. now rewrite rev_involutive. }
  destruct (rev u) as [|c l] eqn:E; [apply occurs_refl|].
  pose proof (HR [c] l eq_refl) as H1.
  assert (H2 : match l with 13%N :: r => occurs (rev r) u | _ => True end).
  { destruct l as [|d r]; [easy|]. pose proof (HR [c; d] r eq_refl) as H2.
    repeat match goal with |- match ?x with _ => _ end => destruct x; try exact I end. exact H2. }
  clear HR E. destruct (N.eq_dec c 10) as [->|H10]; [|destruct (N.eq_dec c 13) as [->|H13]].
  - destruct l as [|d r]; [exact H1|]. destruct (N.eq_dec d 13) as [->|Hd]; [exact H2|].
    repeat match goal with |- occurs (match ?x with _ => _ end) _ => destruct x; try exact H1 end. now contradiction Hd.
  - exact H1.
  - repeat match goal with |- occurs (match ?x with _ => _ end) _ => destruct x; try apply occurs_refl end;
      try (now contradiction H10); now contradiction H13.
Qed.
Lemma block_occurs D r t af : block D r t af -> occurs t r /\ occurs (odef af) r.
Proof.
  intros [u v [E _]|_]; cbn [odef].
  - split.
    + apply (occurs_trans _ u); [apply trim_eol_occurs|]. exists [], (D ++ v). now rewrite E.
    + exists (u ++ D), []. now rewrite app_nil_r, <- app_assoc.
  - split; [apply occurs_refl|]. exists [], r. easy.
Qed.

Theorem parses_exn reg name2cp mk_temp st D : forall r p o, parses reg name2cp mk_temp st D r p o -> countI st p ->
  forall e, o = Err e -> may_raise st e \/ temp_fails mk_temp e \/
                         e = OutOfFuel /\ exists t, occurs t r /\ b64_part reg name2cp t.
Proof.
  intros r p o HP. induction HP as [p|r t af p e Hr Hb HS|r t af p p1 o Hr Hb HS HP IH|r t af p p1 o Hr Hb HS HP IH
    |r t af p p1 k o Hr Hb HS Hk HP IH]; intros Hp e0 E; try easy.
  - injection E as <-. destruct (block_occurs _ _ _ _ Hb) as [Ho _].
    destruct (step_err _ _ _ _ _ _ _ Hp HS) as [H|[H|[H1 H2]]]; [tauto|tauto|]. right. right. split; [easy|]. now exists t.
  - destruct (block_occurs _ _ _ _ Hb) as [_ Ho]. pose proof (step_err _ _ _ _ _ _ _ Hp HS) as Hp1. cbn in Hp1.
    destruct (IH Hp1 e0 E) as [H|[H|(H1 & t0 & H2 & H3)]]; [tauto|tauto|]. right. right. split; [easy|].
    exists t0. split; [|easy]. now apply (occurs_trans _ _ _ H2).
  - destruct (block_occurs _ _ _ _ Hb) as [_ Ho]. pose proof (step_err _ _ _ _ _ _ _ Hp HS) as Hp1. cbn in Hp1.
    destruct (IH Hp1 e0 E) as [H|[H|(H1 & t0 & H2 & H3)]]; [tauto|tauto|]. right. right. split; [easy|].
    exists t0. split; [|easy]. now apply (occurs_trans _ _ _ H2).
  - pose proof (step_err _ _ _ _ _ _ _ Hp HS) as Hp1. cbn in Hp1.
    destruct (IH Hp1 e0 E) as [H|[H|(H1 & t0 & H2 & H3)]]; [tauto|tauto|]. right. right. split; [easy|].
    exists t0. split; [|easy]. apply (occurs_trans _ _ _ H2). apply occurs_skipn.
Qed.
