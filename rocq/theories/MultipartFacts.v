(** * The stream-based parser computes [parses] *)
From Verif Require Import Py Spec PyFacts PyDict StreamModel StreamSpec StreamFacts StreamCalm
  CodecModel QueryModel Base64Model HeaderModel
  BoundaryModel BoundarySpec BoundaryFacts PartFacts UploadModel MultipartModel MultipartSem.

Lemma skipn_skipn {A} a b (l : list A) : skipn a (skipn b l) = skipn (b + a) l.
Proof. revert l. induction b as [|b IH]; intros [|x l]; cbn; rewrite ?skipn_nil; try easy. Qed.

Lemma firstn_all_short {A} n (l : list A) : length (firstn n l) < n -> firstn n l = l /\ length l < n.
Proof.
  rewrite firstn_length. intros H. assert (length l < n) by lia.
  split; [apply firstn_all2; lia|lia].
Qed.

Lemma remove_ws_app a b : remove_ws (a ++ b) = remove_ws a ++ remove_ws b.
Proof. unfold remove_ws. now rewrite filter_app. Qed.

Section Fin.
  Context {P : Type} (pnext : P -> nxt * P) (fuel : nat).
  Notation bnext := (bi_next pnext fuel).
  Notation L2 := (lstream (biter P)).

  Definition fin (s : L2) : nat :=
    match ls_prod s with Some b => if bi_done b then 0 else 1 | None => 1 end.
  Lemma fin_finished s : fin s = 0 <-> finished s.
  Proof.
    unfold fin, finished. destruct (ls_prod s) as [b|]; [destruct (bi_done b) eqn:E|]; split; try easy.
    - intros _. now exists b.
    - intros (b' & [= <-] & H). congruence.
    - now intros (b & H & _).
  Qed.
  Lemma fin_le1 s : fin s <= 1.
  Proof. unfold fin. destruct (ls_prod s) as [b|]; [destruct (bi_done b)|]; lia. Qed.

  Lemma done_inv : forall b : biter P, bi_done b = true -> bi_done (snd (bnext b)) = true.
  Proof. intros b H. unfold bi_next. now rewrite H. Qed.
  Lemma finished_read f n s : finished s -> finished (snd (ls_read bnext f n s)).
  Proof. intros H. exact (read_prodI bnext _ done_inv f n s H). Qed.
  Lemma finished_next s : finished s -> finished (snd (ls_next bnext s)).
  Proof. intros H. exact (next_prodI bnext _ done_inv s H). Qed.

  Lemma unget_prod b (s : L2) : ls_prod (snd (ls_unget b s)) = ls_prod s.
  Proof. unfold ls_unget. destruct b; [easy|]. now destruct (Nat.ltb _ _). Qed.
  Lemma fin_read_le f n s : fin (snd (ls_read bnext f n s)) <= fin s.
  Proof.
    pose proof (fin_le1 (snd (ls_read bnext f n s))). destruct (fin s) as [|k] eqn:E; [|lia].
    apply fin_finished in E. apply (finished_read f n) in E. apply fin_finished in E. lia.
  Qed.
End Fin.

Section Loop.
  Context {R : Type} (rd : nat -> R -> res str * R).
  Context (reg : registry) (name2cp : str -> option N) (mk_temp : str -> res unit).
  Context (st : mset) (D : str) (fuel : nat) (q : chunkiter R) (N : nat).
  Notation P1 := (chunkiter R).
  Notation L1 := (lstream P1).
  Notation L2 := (lstream (biter P1)).
  Notation pn1 := (ci_next rd).
  Notation bnext := (bi_next pn1 fuel).
  Notation live1 := (live pn1 q N).
  Notation part1 := (part pn1 q N D).
  Context (Hfuel : N + 3 <= fuel) (HD : Dok D).

  Lemma part_next_empty r0 t0 af k s rest s' : part1 r0 t0 af k s rest ->
    ls_next bnext s = (Chunk [], s') -> fin s = 1 /\ fin s' = 0.
  Proof.
    intros [b t Hb HB Hr Hrem Hc] E. unfold ls_next in E. destruct (ls_left s) eqn:EL; [|easy].
    rewrite Hb in E. unfold fin. rewrite Hb.
    destruct HB as [y r Hd HDb HL HC HA Hbl H1 H2|y Hd HDb Ht H1 HL HA].
    - rewrite Hd. destruct HD as [HD1 HD2].
      pose proof (bi_next_step pn1 q N D b r fuel HD1 HD2 HDb Hd HL HC Hfuel) as HS.
      destruct (bnext b) as [[c| |e] b']; try easy. injection E as -> <-. cbn.
      destruct HS as (_ & _ & [(Hd' & _)|(_ & Hne & _)]); [now rewrite Hd'|easy].
    - unfold bi_next in E. rewrite Hd in E. easy.
  Qed.

  (** a part that is left: where the outer stream stands *)
  Definition left_to (x : str) (s : L2) : Prop :=
    exists b, ls_prod s = Some b /\ okA (bi_stream b) /\ live1 (bi_stream b) x.
  Definition left_at (r0 t : str) (af : option str) (s : L2) : Prop :=
    left_to (odef af) s \/ exists m, head_size <= m <= length t /\ left_to (skipn m r0) s.
  Lemma left_at_prod r0 t af s s' : ls_prod s' = ls_prod s -> left_at r0 t af s -> left_at r0 t af s'.
  Proof. unfold left_at, left_to. now intros ->. Qed.

  Lemma finished_left r0 t af k s rest : part1 r0 t af k s rest -> finished s -> left_to (odef af) s.
  Proof.
    intros HP HF. destruct (part_done pn1 q N D r0 t af k s rest HP HF) as (b & Hb & HL & HA).
    exists b. auto.
  Qed.

  Lemma pbs_spec r0 t af s : part1 r0 t af 1 s t -> length r0 + 4 <= fuel -> length t <= length r0 ->
    exists s', left_at r0 t af s' /\
      match classify reg t with
      | Err e => parse_boundary_stream rd reg fuel s = (Err e, s')
      | Ok (ty, m, payload) =>
          parse_boundary_stream rd reg fuel s = (Ok (ty, m), s') /\
          (ty <> RAW -> part1 r0 t af 3 s' payload)
      end.
  Proof.
    intros HP HF Hlen. unfold parse_boundary_stream, classify.
    destruct (part_read pn1 q N D fuel Hfuel HD r0 t af 1 s t fuel head_size HP ltac:(lia) HF)
      as (s1 & E1 & HP1 & HF1).
    change (Some MAX_PART_HEADER) with (Some (Z.of_nat head_size)). rewrite E1.
    assert (HL1 : left_at r0 t af s1).
    { destruct (Nat.ltb (length t) head_size) eqn:El.
      - apply Nat.ltb_lt in El. left. apply (finished_left _ _ _ _ _ _ HP1). auto.
      - apply Nat.ltb_ge in El.
        assert (Hl : length (skipn head_size t) < length t).
        { rewrite skipn_length. unfold head_size in *. lia. }
        destruct (part_leave pn1 q N D fuel Hfuel r0 t af 1 s1 _ HP1 Hl) as (b & Hb & HA & HL).
        destruct HL as [[_ HL]|(m & Hm & HL)]; [left; now exists b|].
        right. exists m. split; [|now exists b]. rewrite skipn_length in Hm. lia. }
    assert (Hkeep : forall b s2, ls_unget b s1 = (Ok tt, s2) -> left_at r0 t af s2).
    { intros b s2 E. apply (left_at_prod _ _ _ s1); [|easy].
      pose proof (unget_prod b s1) as HU. now rewrite E in HU. }
    destruct (find crlfcrlf (firstn head_size t)) as [i|] eqn:EF.
    - destruct (part_unget pn1 q N D fuel Hfuel HD r0 t af 1 s1 _ (skipn (i + 4) (firstn head_size t)) HP1 ltac:(lia))
        as (s2 & E2 & HP2 & _).
      rewrite E2.
      assert (Hi : i + 4 <= length (firstn head_size t)).
      { apply find_Some in EF. now change (length crlfcrlf) with 4 in EF. }
      assert (EE : firstn i (firstn head_size t) = firstn i t).
      { rewrite firstn_firstn. rewrite firstn_length in Hi. f_equal. lia. }
      assert (ES : skipn (i + 4) (firstn head_size t) ++ skipn head_size t = skipn (i + 4) t).
      { rewrite <- (firstn_skipn head_size t) at 3. rewrite skipn_app.
        replace (i + 4 - length (firstn head_size t)) with 0 by lia. easy. }
      rewrite EE. rewrite ES in HP2.
      destruct (header_meta reg (split crlf (firstn i t)) RAW []) as [[ty m]|e] eqn:EH; cbn [bind fst snd].
      + destruct ty.
        * destruct (part_unget pn1 q N D fuel Hfuel HD r0 t af 3 s2 _ (firstn head_size t) HP2 ltac:(lia))
            as (s3 & E3 & _ & _).
          rewrite E3. exists s3. split; [|easy].
          apply (left_at_prod _ _ _ s2); [|now apply (Hkeep _ _ E2)]. pose proof (unget_prod (firstn head_size t) s2) as HU. now rewrite E3 in HU.
        * exists s2. split; [now apply (Hkeep _ _ E2)|easy].
        * exists s2. split; [now apply (Hkeep _ _ E2)|easy].
      + exists s2. split; [now apply (Hkeep _ _ E2)|easy].
    - destruct (part_unget pn1 q N D fuel Hfuel HD r0 t af 1 s1 _ (firstn head_size t) HP1 ltac:(lia))
        as (s2 & E2 & HP2 & _).
      rewrite E2. exists s2. split; [now apply (Hkeep _ _ E2)|easy].
  Qed.

  Lemma fin_next_le s : fin (snd (ls_next bnext s)) <= fin s.
  Proof.
    pose proof (fin_le1 (snd (ls_next bnext s))). destruct (fin s) as [|k] eqn:E; [|lia].
    apply fin_finished in E. apply (finished_next pn1 fuel) in E. apply fin_finished in E. lia.
  Qed.

  (** ** Fields *)
  Lemma b64_match (tenc : option str) (raw : str) :
    match tenc with
    | Some t => if seqb t !"base64" then b64decode raw else Ok raw
    | None => Ok raw
    end = if is_b64enc tenc then b64decode raw else Ok raw.
  Proof. now destruct tenc. Qed.
  Lemma field_spec r0 t af k s payload name tenc m p : part1 r0 t af k s payload -> 1 <= k <= 40 ->
    length r0 + 4 <= fuel ->
    exists s', read_field rd reg st fuel name tenc m p s = (field_step reg st name tenc m p payload, s') /\
      (forall p', field_step reg st name tenc m p payload = Ok p' -> left_to (odef af) s').
  Proof.
    intros HP Hk HF. unfold read_field, field_step.
    destruct (match ms_dnum st with Some n => Z.ltb n (p_keys p + 1) | None => false end); [now exists s|].
    destruct (ms_dmem st) as [z|]; cbn [option_map].
    - destruct (Z.ltb (z - p_bytes p) 0) eqn:EZ.
      + apply Z.ltb_lt in EZ. rewrite (read_neg _ _ _ _ EZ) by lia. now exists s.
      + apply Z.ltb_ge in EZ.
        destruct (part_read pn1 q N D fuel Hfuel HD r0 t af k s payload fuel (Z.to_nat (z - p_bytes p))
                    HP ltac:(lia) HF) as (s1 & E1 & HP1 & HF1).
        rewrite Z2Nat.id in E1 by lia. rewrite E1. cbn [bind].
        set (raw := firstn (Z.to_nat (z - p_bytes p)) payload) in *.
        unfold ctype_of.
        assert (HH : forall bytes, bytes = (p_bytes p + zlen raw + (zlen name + 2))%Z -> Z.ltb z bytes = false ->
                     left_to (odef af) s1).
        { intros bytes -> HB. apply Z.ltb_ge in HB. apply (finished_left _ _ _ _ _ _ HP1), HF1.
          unfold zlen in HB. apply firstn_all_short. fold raw. lia. }
        rewrite (b64_match tenc raw). fold (is_b64enc tenc).
        destruct (if is_b64enc tenc then b64decode raw else @Ok str raw) as [data|e]; cbn [bind]; [|now exists s1].
        destruct (Z.ltb z _) eqn:EB; [now exists s1|].
        destruct (match dget !"content-type" m with Some v => v | None => ([], []) end) as [ct extra].
        cbn [fst snd].
        destruct (post_append _ _ _ _ _) as [post|e]; cbn [bind]; [|now exists s1].
        exists s1. split; [easy|]. intros _ _. now apply (HH _ eq_refl).
    - destruct (part_read_all pn1 q N D fuel Hfuel HD r0 t af k s payload fuel HP ltac:(lia))
        as (s1 & E1 & HP1 & HF1).
      rewrite E1. cbn [bind].
      unfold ctype_of.
      rewrite (b64_match tenc payload). fold (is_b64enc tenc).
        destruct (if is_b64enc tenc then b64decode payload else @Ok str payload) as [data|e]; cbn [bind]; [|now exists s1].
      destruct (match dget !"content-type" m with Some v => v | None => ([], []) end) as [ct extra].
      cbn [fst snd].
      destruct (post_append _ _ _ _ _) as [post|e]; cbn [bind]; [|now exists s1].
      exists s1. split; [easy|]. intros _ _. now apply (finished_left _ _ _ _ _ _ HP1).
  Qed.

  (** ** Files *)
  Lemma fill_stuck r0 t af k : 1 <= k <= 40 -> length r0 + 4 <= fuel -> forall n acc s,
    part1 r0 t af k s [] -> length acc mod 4 <> 0 ->
    fst (b64_fill rd fuel n acc s) = Err OutOfFuel.
  Proof.
    intros Hk HF. induction n as [|n IH]; intros acc s HP Hm; [easy|]. cbn [b64_fill].
    destruct (Nat.eqb (length acc mod 4) 0) eqn:E; [now apply Nat.eqb_eq in E|].
    destruct (part_read pn1 q N D fuel Hfuel HD r0 t af k s [] fuel (4 - length acc mod 4) HP Hk HF)
      as (s1 & E1 & HP1 & _).
    rewrite E1, firstn_nil. cbn [remove_ws filter]. rewrite app_nil_r. rewrite skipn_nil in HP1. now apply IH.
  Qed.

  Lemma fill_spec r0 t af k : 1 <= k <= 40 -> length r0 + 4 <= fuel -> forall n acc s rest,
    part1 r0 t af k s rest -> length rest + 1 <= n ->
    match b64_fill rd fuel n acc s with
    | (Ok g, s') => exists a rest', rest = a ++ rest' /\ g = acc ++ remove_ws a /\ length g mod 4 = 0 /\
                    part1 r0 t af k s' rest' /\ fin s' <= fin s
    | (Err e, _) => e = OutOfFuel /\ length (acc ++ remove_ws rest) mod 4 <> 0
    end.
  Proof.
    intros Hk HF. induction n as [|n IH]; intros acc s rest HP Hn; [lia|].
    destruct rest as [|x rest].
    - destruct (Nat.eqb (length acc mod 4) 0) eqn:E.
      + cbn [b64_fill]. rewrite E. apply Nat.eqb_eq in E. exists [], []. cbn [remove_ws filter app]. rewrite app_nil_r. auto 6.
      + apply Nat.eqb_neq in E. pose proof (fill_stuck r0 t af k Hk HF (S n) acc s HP E) as H.
        destruct (b64_fill rd fuel (S n) acc s) as [o s']. cbn in H. subst. cbn [remove_ws filter].
        now rewrite app_nil_r.
    - cbn [b64_fill].
      destruct (Nat.eqb (length acc mod 4) 0) eqn:E.
      + apply Nat.eqb_eq in E. exists [], (x :: rest). cbn [remove_ws filter app]. rewrite app_nil_r. auto 6.
      + apply Nat.eqb_neq in E.
        assert (Hj : 1 <= 4 - length acc mod 4) by (pose proof (Nat.mod_upper_bound (length acc) 4); lia).
        set (j := 4 - length acc mod 4) in *.
        destruct (part_read pn1 q N D fuel Hfuel HD r0 t af k s (x :: rest) fuel j HP Hk HF)
          as (s1 & E1 & HP1 & _).
        rewrite E1.
        assert (Hl : length (skipn j (x :: rest)) + 1 <= n).
        { rewrite skipn_length. cbn [length] in *. lia. }
        specialize (IH (acc ++ remove_ws (firstn j (x :: rest))) s1 _ HP1 Hl).
        pose proof (fin_read_le pn1 fuel fuel (Some (Z.of_nat j)) s) as Hfin. rewrite E1 in Hfin. cbn [snd] in Hfin.
        destruct (b64_fill rd fuel n _ s1) as [[g|e] s2].
        * destruct IH as (a & rest' & H1 & H2 & H3 & H4 & H5).
          exists (firstn j (x :: rest) ++ a), rest'.
          split; [now rewrite <- app_assoc, <- H1, firstn_skipn|].
          split; [now rewrite remove_ws_app, app_assoc|]. split; [easy|]. split; [easy|lia].
        * destruct IH as (-> & H). split; [easy|].
          rewrite <- app_assoc, <- remove_ws_app, firstn_skipn in H. easy.
  Qed.

  Lemma file_spec r0 t af k b64 : 1 <= k <= 40 -> length r0 + 4 <= fuel -> forall n hs cs s rest,
    part1 r0 t af k s rest -> length rest <= length r0 -> length rest + fin s + 1 <= n ->
    exists o s', file_loop rd mk_temp st fuel n b64 hs cs s = (o, s') /\
      fed mk_temp (ms_fmem st) b64 rest (hs, cs) o /\
      (forall hc, o = Ok hc -> left_to (odef af) s').
  Proof.
    intros Hk HF. induction n as [|n IH]; intros hs cs s rest HP Hl Hn; [lia|].
    cbn [file_loop].
    pose proof (part_next pn1 q N D fuel Hfuel HD r0 t af k s rest HP) as HN.
    pose proof (fin_next_le s) as Hfin.
    destruct (ls_next bnext s) as [[c| |e] s1] eqn:EN; [| |easy].
    - destruct HN as (rest1 & -> & HP1). cbn [snd] in Hfin. rewrite app_length in *.
      assert (Hdec : length rest1 + fin s1 + 1 <= n).
      { destruct c as [|x c]; [|cbn [length] in *; lia].
        destruct (part_next_empty _ _ _ _ _ _ _ HP EN). cbn [length] in *. lia. }
      destruct b64.
      + pose proof (fill_spec r0 t af k Hk HF fuel (remove_ws c) s1 rest1 HP1 ltac:(lia)) as HS.
        destruct (b64_fill rd fuel fuel (remove_ws c) s1) as [[g|e] s2].
        * destruct HS as (a & rest2 & -> & -> & Hm & HP2 & Hf2).
          rewrite <- remove_ws_app in *. rewrite app_assoc. rewrite app_length in *.
          destruct (b64decode (remove_ws (c ++ a))) as [d|e] eqn:ED.
          -- destruct (feed mk_temp (ms_fmem st) d hs cs) as [[hs' cs']|e] eqn:EF.
             ++ destruct (IH hs' cs' s2 rest2 HP2 ltac:(lia) ltac:(lia)) as (o & s' & E & HFd & HL).
                exists o, s'. split; [easy|]. split; [|easy].
                eapply fed_b64; [exact Hm|exact ED|exact EF|exact HFd].
             ++ exists (Err e), s2. split; [easy|]. split; [|easy].
                eapply fed_b64_err; [exact Hm|exact ED|exact EF].
          -- exists (Err TypeError), s2. split; [easy|]. split; [|easy].
             eapply fed_b64_bad; [exact Hm|exact ED].
        * destruct HS as (-> & Hm). exists (Err OutOfFuel), s2. split; [easy|]. split; [|easy].
          apply fed_b64_hang. now rewrite remove_ws_app.
      + destruct (feed mk_temp (ms_fmem st) c hs cs) as [[hs' cs']|e] eqn:EF.
        * destruct (IH hs' cs' s1 rest1 HP1 ltac:(lia) Hdec) as (o & s' & E & HFd & HL).
          exists o, s'. split; [easy|]. split; [|easy].
          eapply fed_plain; [exact EF|exact HFd].
        * exists (Err e), s1. split; [easy|]. split; [|easy]. apply fed_plain_err. exact EF.
    - destruct HN as (-> & HP1 & HF1). exists (Ok (hs, cs)), s1. split; [easy|]. split; [apply fed_end|].
      intros _ _. now apply (finished_left _ _ _ _ _ _ HP1).
  Qed.

  (** ** One part *)
  Lemma one_part_spec r0 t af s ty m payload p1 : length r0 + 4 <= fuel -> length payload <= length r0 ->
    (ty <> RAW -> part1 r0 t af 3 s payload) ->
    exists o s', one_part rd reg name2cp mk_temp st fuel ty m p1 s = (o, s') /\
      match part_action name2cp ty m with
      | Err e => o = Err e
      | Ok ASkip => o = Ok p1 /\ s' = s
      | Ok (AField name tenc) => o = field_step reg st name tenc m p1 payload /\
          (forall p', o = Ok p' -> left_to (odef af) s')
      | Ok (AFile i b64) =>
          match new_files mk_temp i (p_hs p1) with
          | Err e => o = Err e
          | Ok hs => exists r, fed mk_temp (ms_fmem st) b64 payload (hs, map (fun _ => 0) hs) r /\
              o = match r with
                  | Err e => Err e
                  | Ok hc => Ok (mkP (p_post p1) (p_files p1) (fi_field i) (snd hc) (fst hc)
                                     (p_bytes p1) (p_keys p1))
                  end /\
              (forall hc, r = Ok hc -> left_to (odef af) s')
          end
      end.
  Proof.
    intros HF Hl HP. unfold one_part, part_action.
    destruct (dget CDISP m) as [[v disp]|]; [|now exists (Ok p1), s].
    destruct (dget !"name" disp) as [raw|]; [|now exists (Ok p1), s].
    destruct (to_native (pstrip raw)) as [name|e]; cbn [bind]; [|now exists (Err e), s].
    destruct ty; [now exists (Ok p1), s| |].
    - specialize (HP ltac:(easy)). unfold read_file. fold (filename_of name2cp disp).
      destruct (filename_of name2cp disp) as [fn|e]; cbn [bind]; [|now exists (Err e), s].
      destruct fn as [|x fn]; [now exists (Ok p1), s|].
      fold (ctype_of m). fold (tenc_of m). destruct (ctype_of m) as [ct extra]. cbn [fst snd].
      fold (is_b64enc (tenc_of m)).
      set (i := mkInfo _ _ _ _ _ _).
      destruct (new_files mk_temp i (p_hs p1)) as [hs|e]; [|now exists (Err e), s].
      pose proof (fin_le1 s).
      destruct (file_spec r0 t af 3 (is_b64enc (tenc_of m)) ltac:(lia) HF fuel hs (map (fun _ => 0) hs) s payload
                  HP Hl ltac:(lia)) as (o & s' & E & HFd & HL).
      rewrite E. destruct o as [[hs' cs']|e].
      + eexists _, s'. split; [easy|]. exists (Ok (hs', cs')). split; [easy|]. split; [easy|]. exact HL.
      + eexists _, s'. split; [easy|]. exists (Err e). split; [easy|]. split; [easy|]. exact HL.
    - specialize (HP ltac:(easy)).
      destruct (field_spec r0 t af 3 s payload name (tenc_of m) m p1 HP ltac:(lia) HF) as (s' & E & HL).
      unfold tenc_of in *. rewrite E. eexists _, s'. split; [easy|]. split; [easy|]. exact HL.
  Qed.

  Lemma block_shrinks r t af : r <> [] -> block D r t af -> length (odef af) < length r.
  Proof.
    intros Hr [u v (H & _)|H]; cbn.
    - subst r. rewrite !app_length. destruct HD. lia.
    - destruct r; [easy|cbn; lia].
  Qed.

  Theorem loop_spec : forall n r p s, live1 s r -> okA s -> length r + 4 <= fuel -> length r + 1 <= n ->
    exists o s', parts_loop rd reg name2cp mk_temp st D fuel n p s = (o, s') /\
      parses reg name2cp mk_temp st D r p o /\
      (forall p', o = Ok p' -> ls_prod s' = Some q).
  Proof.
    induction n as [|n IH]; intros r p s HL HA HF Hn; [lia|].
    cbn [parts_loop].
    pose proof (bi_init_spec pn1 q N s r D fuel HL HA Hfuel) as HB.
    destruct (bi_init pn1 fuel s D) as [[b|e] s1].
    2:{ destruct HB as (-> & -> & _ & _ & Hq). exists (Ok p), s1. split; [easy|]. split; [apply pr_end|easy]. }
    destruct HB as (Hr & -> & HL1 & HC1).
    destruct (block_exists D r) as (t & af & Hbl).
    pose proof (part_init pn1 q N D r af t s1 HC1 HL1 Hbl) as HP.
    pose proof (block_le D r t af Hbl) as Hle.
    pose proof (block_shrinks r t af Hr Hbl) as Hsh.
    destruct (pbs_spec r t af (ls_init (mkBI s1 D false) None) HP HF Hle) as (s2 & HLA & HCl).
    destruct (classify reg t) as [[[ty m] payload]|e] eqn:EC.
    2:{ rewrite HCl. eexists (Err e), _. split; [easy|]. split; [|easy].
        apply (pr_err _ _ _ _ _ r t af); [easy|easy|]. unfold step. now rewrite EC. }
    destruct HCl as (E2 & HP2). rewrite E2.
    destruct (finish_file p) as [p1|e] eqn:EFin.
    2:{ eexists (Err e), _. split; [easy|]. split; [|easy].
        apply (pr_err _ _ _ _ _ r t af); [easy|easy|]. unfold step. now rewrite EC, EFin. }
    assert (Hpl : length payload <= length r).
    { unfold classify in EC. destruct (find crlfcrlf (firstn head_size t)) as [i|].
      - destruct (header_meta reg _ RAW []) as [[ty' m']|]; [|easy]. injection EC as _ _ <-.
        rewrite skipn_length. lia.
      - injection EC as _ _ <-. cbn. lia. }
    destruct (one_part_spec r t af s2 ty m payload p1 HF Hpl HP2) as (o & s3 & E3 & HO).
    rewrite E3.
    assert (HDone : forall p2, o = Ok p2 -> left_to (odef af) s3 -> step reg name2cp mk_temp st p t (ODone p2) ->
      exists o' s', parts_loop rd reg name2cp mk_temp st D fuel n p2 (outer_of s1 s3) = (o', s') /\
        parses reg name2cp mk_temp st D r p o' /\ (forall p', o' = Ok p' -> ls_prod s' = Some q)).
    { intros p2 _ (b & Hb & HA3 & HL3) HS. unfold outer_of. rewrite Hb.
      destruct (IH (odef af) p2 (bi_stream b) HL3 HA3 ltac:(lia) ltac:(lia)) as (o' & s' & E & HPa & HQ).
      exists o', s'. split; [easy|]. split; [|easy]. now apply (pr_done _ _ _ _ _ r t af p p2). }
    assert (HErr : forall e, o = Err e -> step reg name2cp mk_temp st p t (OErr e) ->
      exists o' s', (match o with
                     | Ok p2 => parts_loop rd reg name2cp mk_temp st D fuel n p2 (outer_of s1 s3)
                     | Err e => (Err e, outer_of s1 s3)
                     end) = (o', s') /\
        parses reg name2cp mk_temp st D r p o' /\ (forall p', o' = Ok p' -> ls_prod s' = Some q)).
    { intros e -> HS. eexists (Err e), _. split; [easy|]. split; [|easy].
      now apply (pr_err _ _ _ _ _ r t af). }
    unfold step in HDone, HErr. rewrite EC, EFin in HDone, HErr.
    destruct (part_action name2cp ty m) as [[|name tenc|i b64]|e] eqn:EA.
    - destruct HO as (-> & ->).
      assert (HS : step reg name2cp mk_temp st p t (OSkip p1)).
      { unfold step. now rewrite EC, EFin, EA. }
      destruct HLA as [(b & Hb & HA3 & HL3)|(k & Hk & b & Hb & HA3 & HL3)]; unfold outer_of; rewrite Hb.
      + destruct (IH (odef af) p1 (bi_stream b) HL3 HA3 ltac:(lia) ltac:(lia)) as (o' & s' & E & HPa & HQ).
        exists o', s'. split; [easy|]. split; [|easy]. now apply (pr_skip _ _ _ _ _ r t af p p1).
      + assert (length (skipn k r) < length r).
        { rewrite skipn_length. unfold head_size in *. lia. }
        destruct (IH (skipn k r) p1 (bi_stream b) HL3 HA3 ltac:(lia) ltac:(lia)) as (o' & s' & E & HPa & HQ).
        exists o', s'. split; [easy|]. split; [|easy]. now apply (pr_leak _ _ _ _ _ r t af p p1 k).
    - destruct HO as (Ho & HLO). destruct (field_step reg st name tenc m p1 payload) as [p2|e] eqn:EFS; subst o.
      + apply HDone; [easy|now apply (HLO p2)|easy].
      + now apply (HErr e).
    - destruct (new_files mk_temp i (p_hs p1)) as [hs|e]; [|now apply (HErr e)].
      destruct HO as (rr & HFd & Ho & HLO). destruct rr as [hc|e]; subst o.
      + apply HDone; [easy|now apply (HLO hc)|]. now exists (Ok hc).
      + apply (HErr e); [easy|]. now exists (Err e).
    - now apply (HErr e).
  Qed.
End Loop.

(** ** The whole parser *)
Section Whole.
  Context {R : Type} (rd : nat -> R -> res str * R) (exh : R -> res unit * R).
  Context (reg : registry) (name2cp : str -> option N) (mk_temp : str -> res unit).
  Context (st : mset) (D : str).
  Context (HD : Dok D).

  Definition start_state (len : Z) (hs : list handler) : pst :=
    let hs := map (h_raw_input (ms_fmem st) len) hs in mkP [] [] [] (map (fun _ => 0) hs) hs 0 0.

  Theorem parse_sem r csize cs q len hs qd :
    yields (ci_next rd) (mkCI r csize) cs None q -> Forall (fun c => c <> []) cs ->
    querydict reg (Some (ms_query st)) None true = Ok qd -> len <> 0%Z ->
    forall fuel, length cs + length (concat cs) + 4 <= fuel ->
    exists o, parses reg name2cp mk_temp st D (concat cs) (start_state len hs) o /\
      match o with
      | Err e => fst (mp_parse rd exh reg name2cp mk_temp st D fuel csize len hs r) = Err e
      | Ok p => mp_parse rd exh reg name2cp mk_temp st D fuel csize len hs r =
                match exh (ci_flo q) with
                | (Ok _, r') => (Ok (p_post p, p_files p), r')
                | (Err e, r') => (Err e, r')
                end
      end.
  Proof.
    intros HY HNE Hqd Hlen fuel Hfuel. unfold mp_parse.
    rewrite Hqd. apply Z.eqb_neq in Hlen. rewrite Hlen. cbv zeta.
    set (N := length cs).
    pose proof (live_init (ci_next rd) (mkCI r csize) cs q HY HNE) as HL.
    destruct (loop_spec rd reg name2cp mk_temp st D fuel q N ltac:(unfold N; lia) HD fuel (concat cs)
                (start_state len hs) (ls_init (mkCI r csize) None) HL (okA_init _) ltac:(lia) ltac:(lia))
      as (o & s' & E & HP & HQ).
    unfold start_state in E at 1. cbv zeta in E. rewrite E. exists o. split; [easy|].
    destruct o as [p|e]; [|easy]. unfold input_of. rewrite (HQ p eq_refl).
    now destruct (exh (ci_flo q)) as [[u|e] r'].
  Qed.
End Whole.
