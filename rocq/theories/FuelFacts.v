(** * More fuel never changes an answer of the multipart parser, and a parse that has run out of a
    sufficient supply never ends *)
From Verif Require Import Py Spec PyFacts PyDict StreamModel StreamSpec StreamFacts StreamCalm
  CodecModel QueryModel Base64Model HeaderModel
  BoundaryModel BoundarySpec BoundaryFacts PartFacts UploadModel MultipartModel MultipartSem MultipartFacts MultipartDet.

(** [b] answers what [a] answers, if [a] answers at all *)
Definition le1 {A S} (a b : res A * S) : Prop := fst a <> Err OutOfFuel -> b = a.
Definition len {P} (a b : nxt * P) : Prop := fst a <> Raise OutOfFuel -> b = a.
Lemma le1_refl {A S} (a : res A * S) : le1 a a. Proof. now intros _. Qed.
Lemma le1_bind {A B S T} (a b : res A * S) (k1 k2 : A -> S -> res B * T) (ke : exn -> S -> res B * T) :
  le1 a b -> (forall e s, fst (ke e s) = Err e) -> (forall v s, a = (Ok v, s) -> le1 (k1 v s) (k2 v s)) ->
  le1 (match a with (Ok v, s) => k1 v s | (Err e, s) => ke e s end) (match b with (Ok v, s) => k2 v s | (Err e, s) => ke e s end).
Proof.
  intros H He Hk. destruct a as [[v|e] s].
  - rewrite (H ltac:(discriminate)). now apply Hk.
  - intros Hn. rewrite He in Hn. rewrite (H ltac:(cbn; congruence)). reflexivity.
Qed.

Section Streams.
  Context {P : Type} (pn pn' : P -> nxt * P) (Hpn : forall b, len (pn b) (pn' b)).
  Lemma next_le s : len (ls_next pn s) (ls_next pn' s).
  Proof.
    unfold len, ls_next. destruct (ls_left s) eqn:E; [|easy]. destruct (ls_prod s) as [b|]; [|easy].
    specialize (Hpn b). unfold len in Hpn. destruct (pn b) as [[c| |e] b']; cbn [fst] in *; intros H.
    - now rewrite Hpn.
    - now rewrite Hpn.
    - now rewrite Hpn.
  Qed.
  Lemma loop_le : forall f f' rem out s, f <= f' -> le1 (ls_read_loop pn f rem out s) (ls_read_loop pn' f' rem out s).
  Proof.
    induction f as [|f IH]; intros f' rem out s Hf; [now intros H|]. destruct f' as [|f']; [lia|]. cbn [ls_read_loop].
    destruct (Z.eqb rem 0); [apply le1_refl|]. destruct (Z.ltb rem 0); [apply le1_refl|].
    pose proof (next_le s) as HN. unfold len in HN. destruct (ls_next pn s) as [[c| |e] s1]; cbn [fst] in HN.
    - rewrite HN by discriminate. destruct (ls_unget _ s1) as [[u|e] s2]; [|apply le1_refl]. apply IH. lia.
    - rewrite HN by discriminate. apply le1_refl.
    - intros H. cbn [fst] in H. rewrite HN by congruence. reflexivity.
  Qed.
  Lemma join_le : forall f f' out s, f <= f' -> le1 (ls_join pn f out s) (ls_join pn' f' out s).
  Proof.
    induction f as [|f IH]; intros f' out s Hf; [now intros H|]. destruct f' as [|f']; [lia|]. cbn [ls_join].
    pose proof (next_le s) as HN. unfold len in HN. destruct (ls_next pn s) as [[c| |e] s1]; cbn [fst] in HN.
    - rewrite HN by discriminate. apply IH. lia.
    - rewrite HN by discriminate. apply le1_refl.
    - intros H. cbn [fst] in H. rewrite HN by congruence. reflexivity.
  Qed.
  Lemma read_le f f' n s : f <= f' -> le1 (ls_read pn f n s) (ls_read pn' f' n s).
  Proof. intros Hf. unfold ls_read. destruct (match n with None => _ | Some _ => _ end); [now apply loop_le|now apply join_le]. Qed.
End Streams.
Lemma len_refl {P} (a : nxt * P) : len a a. Proof. now intros _. Qed.

Section Bound.
  Context {P : Type} (pn : P -> nxt * P).
  Lemma init_le f f' s D : f <= f' -> le1 (bi_init pn f s D) (bi_init pn f' s D).
  Proof.
    intros Hf. unfold bi_init. pose proof (read_le pn pn (fun b => len_refl (pn b)) f f' (Some 1%Z) s Hf) as H. unfold le1 in H.
    destruct (ls_read pn f (Some 1%Z) s) as [[c|e] s1]; cbn [fst] in H.
    - rewrite H by discriminate. apply le1_refl.
    - intros Hn. cbn [fst] in Hn. rewrite H by congruence. reflexivity.
  Qed.
  Lemma collect_le : forall f f' rb n acc s, f <= f' -> le1 (bi_collect pn f rb n acc s) (bi_collect pn f' rb n acc s).
  Proof.
    induction f as [|f IH]; intros f' rb n acc s Hf; [now intros H|]. destruct f' as [|f']; [lia|]. cbn [bi_collect].
    destruct (ls_next pn s) as [[c| |e] s1]; [|apply le1_refl|apply le1_refl].
    destruct (Nat.ltb _ _); [apply le1_refl|]. destruct c as [|x c]; [apply le1_refl|]. apply IH. lia.
  Qed.
  Lemma bnext_le f f' b : f <= f' -> len (bi_next pn f b) (bi_next pn f' b).
  Proof.
    intros Hf. unfold bi_next. destruct (bi_done b); [apply len_refl|].
    pose proof (collect_le f f' (rollback (bi_boundary b)) 0 [] (bi_stream b) Hf) as H. unfold le1 in H.
    destruct (bi_collect pn f _ 0 [] (bi_stream b)) as [[[cs e]|e] s1]; cbn [fst] in H.
    - rewrite H by discriminate. apply len_refl.
    - intros Hn. cbn [fst] in Hn. rewrite H by congruence. reflexivity.
  Qed.
End Bound.

Section Parser.
  Context {R : Type} (rd : nat -> R -> res str * R) (exh : R -> res unit * R).
  Context (reg : registry) (name2cp : str -> option N) (mk_temp : str -> res unit).
  Context (st : mset) (D : str) (F F' : nat) (HF : F <= F').
  Notation pn1 := (ci_next rd).
  Notation pn2 := (bi_next pn1 F).
  Notation pn2' := (bi_next pn1 F').
  Lemma pn2_le b : len (pn2 b) (pn2' b). Proof. now apply bnext_le. Qed.
  Lemma read2_le n s : le1 (ls_read pn2 F n s) (ls_read pn2' F' n s).
  Proof. apply read_le; [exact pn2_le|exact HF]. Qed.

  Lemma pbs_le s : le1 (parse_boundary_stream rd reg F s) (parse_boundary_stream rd reg F' s).
  Proof.
    unfold parse_boundary_stream. apply le1_bind; [apply read2_le|reflexivity|]. intros v s1 _. apply le1_refl.
  Qed.
  Lemma field_le name tenc m p s : le1 (read_field rd reg st F name tenc m p s) (read_field rd reg st F' name tenc m p s).
  Proof.
    unfold read_field. cbv zeta. destruct (match ms_dnum st with Some n => _ | None => _ end); [apply le1_refl|].
    apply le1_bind; [apply read2_le|reflexivity|]. intros v s1 _. apply le1_refl.
  Qed.
  Lemma fill_le : forall n n' acc s, n <= n' -> le1 (b64_fill rd F n acc s) (b64_fill rd F' n' acc s).
  Proof.
    induction n as [|n IH]; intros n' acc s Hn; [now intros H|]. destruct n' as [|n']; [lia|]. cbn [b64_fill].
    destruct (Nat.eqb _ 0); [apply le1_refl|]. apply le1_bind; [apply read2_le|reflexivity|]. intros v s1 _. apply IH. lia.
  Qed.
  Lemma chunk_le (b64 : bool) c s :
    le1 (if b64 then match b64_fill rd F F (remove_ws c) s with
                     | (Err e, s2) => (Err e, s2)
                     | (Ok g, s2) => (match b64decode g with Ok d => Ok d | Err _ => Err TypeError end, s2) end
         else (Ok c, s))
        (if b64 then match b64_fill rd F' F' (remove_ws c) s with
                     | (Err e, s2) => (Err e, s2)
                     | (Ok g, s2) => (match b64decode g with Ok d => Ok d | Err _ => Err TypeError end, s2) end
         else (Ok c, s)).
  Proof.
    destruct b64; [|apply le1_refl]. apply le1_bind; [now apply fill_le|reflexivity|]. intros v s1 _. apply le1_refl.
  Qed.
  Lemma file_le b64 : forall n n' hs cs s, n <= n' -> le1 (file_loop rd mk_temp st F n b64 hs cs s) (file_loop rd mk_temp st F' n' b64 hs cs s).
  Proof.
    induction n as [|n IH]; intros n' hs cs s Hn; [now intros H|]. destruct n' as [|n']; [lia|]. cbn [file_loop].
    pose proof (next_le pn2 pn2' pn2_le s) as HN. unfold len in HN. destruct (ls_next pn2 s) as [[c| |e] s1]; cbn [fst] in HN.
    - rewrite HN by discriminate. apply le1_bind; [apply chunk_le|reflexivity|]. intros d s2 _.
      destruct (feed mk_temp (ms_fmem st) d hs cs) as [[hs' cs']|e]; [|apply le1_refl]. apply IH. lia.
    - rewrite HN by discriminate. apply le1_refl.
    - intros H. cbn [fst] in H. rewrite HN by congruence. reflexivity.
  Qed.
  Lemma rfile_le name tenc disp m p s : le1 (read_file rd name2cp mk_temp st F name tenc disp m p s) (read_file rd name2cp mk_temp st F' name tenc disp m p s).
  Proof.
    unfold read_file. match goal with |- context [match ?x with Ok _ => _ | Err _ => _ end] => destruct x as [fn|e] end; [|apply le1_refl].
    destruct fn as [|x fn]; [apply le1_refl|]. destruct (match dget _ m with Some v => v | None => _ end) as [ct extra].
    destruct (new_files _ _ _) as [hs|e]; [|apply le1_refl].
    apply le1_bind; [now apply file_le|reflexivity|]. intros [hs' cs'] s1 _. apply le1_refl.
  Qed.
  Lemma part_le ty m p s : le1 (one_part rd reg name2cp mk_temp st F ty m p s) (one_part rd reg name2cp mk_temp st F' ty m p s).
  Proof.
    unfold one_part. destruct (dget CDISP m) as [[v disp]|]; [|apply le1_refl]. destruct (dget _ disp) as [raw|]; [|apply le1_refl].
    cbv zeta. destruct (to_native _) as [name|e]; [|apply le1_refl]. destruct ty; [apply le1_refl|apply rfile_le|apply field_le].
  Qed.
  Lemma parts_le : forall n n' p s, n <= n' -> le1 (parts_loop rd reg name2cp mk_temp st D F n p s) (parts_loop rd reg name2cp mk_temp st D F' n' p s).
  Proof.
    induction n as [|n IH]; intros n' p s Hn; [now intros H|]. destruct n' as [|n']; [lia|]. cbn [parts_loop].
    pose proof (init_le pn1 F F' s D HF) as H. unfold le1 in H. destruct (bi_init pn1 F s D) as [[b|e] s1]; cbn [fst] in H.
    - rewrite H by discriminate. clear H.
      pose proof (pbs_le (ls_init b None)) as H. unfold le1 in H. destruct (parse_boundary_stream rd reg F (ls_init b None)) as [[[ty m]|e] s2]; cbn [fst] in H.
      2:{ intros Hx. cbn [fst] in Hx. rewrite H by congruence. reflexivity. }
      rewrite H by discriminate. clear H. destruct (finish_file p) as [p1|e]; [|apply le1_refl].
      apply le1_bind; [apply part_le|reflexivity|]. intros p2 s3 _. apply IH. lia.
    - intros Hx. assert (e <> OutOfFuel) as He by (intros ->; apply Hx; reflexivity).
      rewrite H by congruence. reflexivity.
  Qed.
  Theorem parse_le csize clen hs r : le1 (mp_parse rd exh reg name2cp mk_temp st D F csize clen hs r) (mp_parse rd exh reg name2cp mk_temp st D F' csize clen hs r).
  Proof.
    unfold mp_parse. destruct (querydict _ _ _ _); [|apply le1_refl]. destruct (Z.eqb clen 0); [apply le1_refl|]. cbv zeta.
    pose proof (parts_le F F' (mkP [] [] [] (map (fun _ => 0) (map (h_raw_input (ms_fmem st) clen) hs)) (map (h_raw_input (ms_fmem st) clen) hs) 0 0)
                 (ls_init (mkCI r csize) None) HF) as H. unfold le1 in H.
    destruct (parts_loop rd reg name2cp mk_temp st D F F _ _) as [[p|e] s]; cbn [fst] in H.
    - rewrite H by discriminate. apply le1_refl.
    - intros Hx. cbn [fst] in Hx. rewrite H by congruence. reflexivity.
  Qed.
End Parser.

(** ** Endless parses *)
Section Hang.
  Context {R : Type} (rd : nat -> R -> res str * R).
  Context (reg : registry) (name2cp : str -> option N) (mk_temp : str -> res unit).
  Context (st : mset) (D : str) (F F' : nat) (q : chunkiter R) (N : nat).
  Notation P1 := (chunkiter R).
  Notation L2 := (lstream (biter P1)).
  Notation pn1 := (ci_next rd).
  Notation live1 := (live pn1 q N).
  Notation part1 := (part pn1 q N D).
  Context (Hfuel : N + 3 <= F) (HF : F <= F') (HD : Dok D).

  Lemma hang_fill r0 t af k : 1 <= k <= 40 -> length r0 + 4 <= F -> forall n n' acc s rest,
    part1 r0 t af k s rest -> length rest + 1 <= n -> n <= n' ->
    fst (b64_fill rd F n acc s) = Err OutOfFuel -> fst (b64_fill rd F' n' acc s) = Err OutOfFuel.
  Proof.
    intros Hk HL. induction n as [|n IH]; intros n' acc s rest HP Hn Hle; [lia|]. destruct n' as [|n']; [lia|].
    destruct rest as [|x rest].
    - destruct (Nat.eqb (length acc mod 4) 0) eqn:E.
      + cbn [b64_fill]. rewrite E. discriminate.
      + apply Nat.eqb_neq in E. intros _. apply (fill_stuck rd D F' q N ltac:(lia) HD r0 t af k Hk ltac:(lia) _ _ _ HP E).
    - cbn [b64_fill]. destruct (Nat.eqb (length acc mod 4) 0) eqn:E; [discriminate|]. apply Nat.eqb_neq in E.
      assert (Hj : 1 <= 4 - length acc mod 4) by (pose proof (Nat.mod_upper_bound (length acc) 4); lia).
      set (j := 4 - length acc mod 4) in *.
      destruct (part_read pn1 q N D F Hfuel HD r0 t af k s (x :: rest) F j HP Hk HL) as (s1 & E1 & HP1 & _).
      pose proof (read2_le rd F F' HF (Some (Z.of_nat j)) s) as H. rewrite E1 in H. rewrite E1, H by discriminate.
      apply (IH n' _ s1 _ HP1); [|lia]. rewrite skipn_length. cbn [length] in *. lia.
  Qed.

  Lemma hang_file r0 t af k b64 : 1 <= k <= 40 -> length r0 + 4 <= F -> forall n n' hs cs s rest,
    part1 r0 t af k s rest -> length rest <= length r0 -> length rest + fin s + 1 <= n -> n <= n' ->
    fst (file_loop rd mk_temp st F n b64 hs cs s) = Err OutOfFuel -> fst (file_loop rd mk_temp st F' n' b64 hs cs s) = Err OutOfFuel.
  Proof.
    intros Hk HL. induction n as [|n IH]; intros n' hs cs s rest HP Hl Hn Hle; [lia|]. destruct n' as [|n']; [lia|].
    cbn [file_loop].
    pose proof (part_next pn1 q N D F Hfuel HD r0 t af k s rest HP) as HN.
    pose proof (fin_next_le rd F N Hfuel s) as Hfin.
    pose proof (next_le (bi_next pn1 F) (bi_next pn1 F') (pn2_le rd F F' HF) s) as HE. unfold len in HE.
    destruct (ls_next (bi_next pn1 F) s) as [[c| |e] s1] eqn:EN; [| |easy]; cbn [fst] in HE; rewrite HE by discriminate; [|easy].
    destruct HN as (rest1 & -> & HP1). cbn [snd] in Hfin. rewrite app_length in *.
    assert (Hdec : length rest1 + fin s1 + 1 <= n).
    { destruct c as [|x c]; [|cbn [length] in *; lia].
      destruct (part_next_empty rd D F q N Hfuel HD _ _ _ _ _ _ _ HP EN). cbn [length] in *. lia. }
    destruct b64.
    - pose proof (fill_spec rd D F q N Hfuel HD r0 t af k Hk HL F (remove_ws c) s1 rest1 HP1 ltac:(lia)) as HS.
      pose proof (hang_fill r0 t af k Hk HL F F' (remove_ws c) s1 rest1 HP1 ltac:(lia) HF) as HH.
      pose proof (fill_le rd name2cp mk_temp F F' HF F F' (remove_ws c) s1 HF) as HM. unfold le1 in HM.
      destruct (b64_fill rd F F (remove_ws c) s1) as [[g|e] s2]; cbn [fst] in HM.
      + rewrite HM by discriminate. destruct HS as (a & rest2 & -> & -> & Hm & HP2 & Hf2). rewrite app_length in *.
        destruct (b64decode _) as [d|e]; [|easy]. destruct (feed _ _ _ _ _) as [[hs' cs']|e]; [|easy].
        apply (IH n' hs' cs' s2 rest2 HP2); lia.
      + destruct HS as (-> & _). intros _. specialize (HH eq_refl). destruct (b64_fill rd F' F' (remove_ws c) s1) as [o s3]. cbn [fst] in HH. now subst o.
    - destruct (feed _ _ _ _ _) as [[hs' cs']|e]; [|easy]. apply (IH n' hs' cs' s1 rest1 HP1); lia.
  Qed.

  Lemma hang_part r0 t af s ty m payload p1 : length r0 + 4 <= F -> length payload <= length r0 ->
    (ty <> RAW -> part1 r0 t af 3 s payload) ->
    fst (one_part rd reg name2cp mk_temp st F ty m p1 s) = Err OutOfFuel ->
    fst (one_part rd reg name2cp mk_temp st F' ty m p1 s) = Err OutOfFuel.
  Proof.
    intros HL Hl HP. unfold one_part. destruct (dget CDISP m) as [[v disp]|]; [|easy]. destruct (dget _ disp) as [raw|]; [|easy].
    cbv zeta. destruct (to_native _) as [name|e]; [|easy]. destruct ty; [easy| |].
    - specialize (HP ltac:(easy)). unfold read_file.
      match goal with |- context [match ?x with Ok _ => _ | Err _ => _ end] => destruct x as [fn|e] end; [|easy].
      destruct fn as [|x fn]; [easy|]. destruct (match dget _ m with Some v => v | None => _ end) as [ct extra].
      destruct (new_files _ _ _) as [hs|e]; [|easy].
      match goal with |- context [file_loop rd mk_temp st F F ?b hs ?cs s] =>
        pose proof (hang_file r0 t af 3 b ltac:(lia) HL F F' hs cs s payload HP Hl ltac:(pose proof (fin_le1 s); lia) HF) as HH;
        pose proof (file_le rd name2cp mk_temp st D F F' HF b F F' hs cs s HF) as HM; unfold le1 in HM;
        destruct (file_loop rd mk_temp st F F b hs cs s) as [[[hs' cs']|e] s1] end; cbn [fst] in *.
      + easy.
      + intros E. injection E as ->. specialize (HH eq_refl). destruct (file_loop rd mk_temp st F' F' _ _ _ _) as [o s2]. cbn [fst] in HH. now subst o.
    - specialize (HP ltac:(easy)). set (tenc := option_map _ _).
      pose proof (field_le rd reg st F F' HF name tenc m p1 s) as HM. unfold le1 in HM.
      destruct (field_spec rd reg st D F q N Hfuel HD r0 t af 3 s payload name tenc m p1 HP ltac:(lia) HL) as (s' & E & _).
      destruct (field_spec rd reg st D F' q N ltac:(lia) HD r0 t af 3 s payload name tenc m p1 HP ltac:(lia) ltac:(lia)) as (s2 & E' & _).
      rewrite E, E'. easy.
  Qed.

  Lemma hang_parts : forall n n' r p s, live1 s r -> okA s -> length r + 4 <= F -> length r + 1 <= n -> n <= n' ->
    fst (parts_loop rd reg name2cp mk_temp st D F n p s) = Err OutOfFuel ->
    fst (parts_loop rd reg name2cp mk_temp st D F' n' p s) = Err OutOfFuel.
  Proof.
    induction n as [|n IH]; intros n' r p s HL HA HF0 Hn Hle; [lia|]. destruct n' as [|n']; [lia|]. cbn [parts_loop].
    pose proof (bi_init_spec pn1 q N s r D F HL HA Hfuel) as HB.
    pose proof (init_le pn1 F F' s D HF) as HI. unfold le1 in HI.
    destruct (bi_init pn1 F s D) as [[b|e] s1]; cbn [fst] in HI.
    2:{ destruct HB as (-> & -> & _). rewrite HI by discriminate. easy. }
    rewrite HI by discriminate. clear HI. destruct HB as (Hr & -> & HL1 & HC1).
    destruct (block_exists D r) as (t & af & Hbl).
    pose proof (part_init pn1 q N D r af t s1 HC1 HL1 Hbl) as HP.
    pose proof (block_le D r t af Hbl) as Hlen.
    pose proof (block_shrinks D F N Hfuel HD r t af Hr Hbl) as Hsh.
    destruct (pbs_spec rd reg D F q N Hfuel HD r t af (ls_init (mkBI s1 D false) None) HP HF0 Hlen) as (s2 & HLA & HCl).
    pose proof (pbs_le rd reg F F' HF (ls_init (mkBI s1 D false) None)) as HM. unfold le1 in HM.
    destruct (classify reg t) as [[[ty m] payload]|e] eqn:EC.
    2:{ destruct (pbs_spec rd reg D F' q N ltac:(lia) HD r t af (ls_init (mkBI s1 D false) None) HP ltac:(lia) Hlen) as (s2' & _ & HCl').
        rewrite EC in HCl'. rewrite HCl, HCl'. easy. }
    destruct HCl as (E2 & HP2). rewrite E2 in HM. rewrite E2, HM by discriminate. clear HM.
    destruct (finish_file p) as [p1|e]; [|easy].
    assert (Hpl : length payload <= length r).
    { unfold classify in EC. destruct (find crlfcrlf (firstn head_size t)) as [i|].
      - destruct (header_meta reg _ RAW []) as [[ty' m']|]; [|easy]. injection EC as _ _ <-.
        rewrite skipn_length. lia.
      - injection EC as _ _ <-. cbn. lia. }
    destruct (one_part_spec rd reg name2cp mk_temp st D F q N Hfuel HD r t af s2 ty m payload p1 HF0 Hpl HP2) as (o & s3 & E3 & HO).
    pose proof (hang_part r t af s2 ty m payload p1 HF0 Hpl HP2) as HH.
    pose proof (part_le rd reg name2cp mk_temp st D F F' HF ty m p1 s2) as HM. unfold le1 in HM.
    rewrite E3 in *. cbn [fst] in *. destruct o as [p2|e].
    2:{ intros E. cbn in E. injection E as ->. specialize (HH eq_refl). destruct (one_part rd reg name2cp mk_temp st F' ty m p1 s2) as [o s4]. cbn [fst] in HH. now subst o. }
    rewrite HM by discriminate.
    assert (HDone : left_to rd q N (odef af) s3 ->
      fst (parts_loop rd reg name2cp mk_temp st D F n p2 (outer_of s1 s3)) = Err OutOfFuel ->
      fst (parts_loop rd reg name2cp mk_temp st D F' n' p2 (outer_of s1 s3)) = Err OutOfFuel).
    { intros (b & Hb & HA3 & HL3). unfold outer_of. rewrite Hb. apply (IH n' (odef af) p2 (bi_stream b) HL3 HA3); lia. }
    destruct (part_action name2cp ty m) as [[|name tenc|i b64]|e] eqn:EA; [| | |discriminate HO].
    - destruct HO as ([= ->] & ->). destruct HLA as [HLA|(k & Hk & b & Hb & HA3 & HL3)]; [now apply HDone|].
      unfold outer_of. rewrite Hb. assert (length (skipn k r) < length r) by (rewrite skipn_length; unfold head_size in *; lia).
      apply (IH n' (skipn k r) p1 (bi_stream b) HL3 HA3); lia.
    - destruct HO as (_ & HLO). apply HDone, (HLO p2). reflexivity.
    - destruct (new_files mk_temp i (p_hs p1)) as [hs|e]; [|discriminate HO]. destruct HO as (rr & _ & Ho & HLO).
      destruct rr as [hc|e]; [|discriminate Ho]. apply HDone, (HLO hc). reflexivity.
  Qed.
End Hang.

Theorem parse_hang {R} (rd : nat -> R -> res str * R) exh reg name2cp mk_temp st D r csize cs q clen hs F F' : Dok D ->
  yields (ci_next rd) (mkCI r csize) cs None q -> Forall (fun c => c <> []) cs ->
  length cs + length (concat cs) + 4 <= F -> F <= F' -> fst (exh (ci_flo q)) <> Err OutOfFuel ->
  fst (mp_parse rd exh reg name2cp mk_temp st D F csize clen hs r) = Err OutOfFuel ->
  fst (mp_parse rd exh reg name2cp mk_temp st D F' csize clen hs r) = Err OutOfFuel.
Proof.
  intros HD HY HNE HF HF' HX. unfold mp_parse. destruct (querydict _ _ _ _); [|easy]. destruct (Z.eqb clen 0); [easy|]. cbv zeta.
  pose proof (live_init (ci_next rd) (mkCI r csize) cs q HY HNE) as HL.
  set (p := mkP _ _ _ _ _ _ _).
  pose proof (hang_parts rd reg name2cp mk_temp st D F F' q (length cs) ltac:(lia) HF' HD F F' (concat cs) p (ls_init (mkCI r csize) None)
                HL (okA_init _) ltac:(lia) ltac:(lia) HF') as HH.
  destruct (loop_spec rd reg name2cp mk_temp st D F q (length cs) ltac:(lia) HD F (concat cs) p (ls_init (mkCI r csize) None)
              HL (okA_init _) ltac:(lia) ltac:(lia)) as (o & s' & E & _ & HQ). rewrite E in *.
  destruct o as [p2|e].
  - unfold input_of. rewrite (HQ p2 eq_refl). destruct (exh (ci_flo q)) as [[u|e] r1]; cbn [fst] in *; congruence.
  - cbn [fst] in HH |- *. intros [= ->]. specialize (HH eq_refl). destruct (parts_loop rd reg name2cp mk_temp st D F' F' p _) as [o s2]. cbn [fst] in HH. now subst o.
Qed.
