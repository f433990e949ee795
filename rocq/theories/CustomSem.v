(** * What the parser with arbitrary handlers computes from the bytes of the body
    (CustomModel), without streams; and the proof that the streams compute it *)
From Verif Require Import Py Spec PyFacts PyDict StreamModel StreamSpec StreamFacts StreamCalm
  CodecModel QueryModel Base64Model HeaderModel
  BoundaryModel BoundarySpec BoundaryFacts PartFacts UploadModel MultipartModel MultipartSem MultipartFacts MultipartDet CustomModel.

Definition part_length (m : pmeta) : option Z :=
  match dget !"content-length" m with Some v => py_int 10 (fst v) | None => None end.

Section Sem.
  Context (reg : registry) (name2cp : str -> option N) (st : mset).
  Context {S F X : Type} (O : ops S F X) (truthy : F -> bool).
  Definition ghs := (list S * list nat)%type.

  (** delivering a payload in pieces *)
  Inductive gfed : bool -> str -> ghs -> cr unit * ghs -> Prop :=
  | gfed_end b hc : gfed b [] hc (Good tt, hc)
  | gfed_plain c rest hc hc' o : c_feed O c (fst hc) (snd hc) = (Good tt, hc') ->
      gfed false rest hc' o -> gfed false (c ++ rest) hc o
  | gfed_plain_bad c rest hc x hc' : c_feed O c (fst hc) (snd hc) = (Bad x, hc') ->
      gfed false (c ++ rest) hc (Bad x, hc')
  | gfed_b64 c rest d hc hc' o : length (remove_ws c) mod 4 = 0 -> b64decode (remove_ws c) = Ok d ->
      c_feed O d (fst hc) (snd hc) = (Good tt, hc') ->
      gfed true rest hc' o -> gfed true (c ++ rest) hc o
  | gfed_b64_bad c rest d hc x hc' : length (remove_ws c) mod 4 = 0 -> b64decode (remove_ws c) = Ok d ->
      c_feed O d (fst hc) (snd hc) = (Bad x, hc') -> gfed true (c ++ rest) hc (Bad x, hc')
  | gfed_b64_err c rest hc e : length (remove_ws c) mod 4 = 0 -> b64decode (remove_ws c) = Err e ->
      gfed true (c ++ rest) hc (Bad (CExn TypeError), hc)
  | gfed_b64_hang rest hc : length (remove_ws rest) mod 4 <> 0 -> gfed true rest hc (Bad (CExn OutOfFuel), hc).

  (** the part is used up; it is left; an exception is raised *)
  Inductive goutcome := GDone (p : cst S F) | GSkip (p : cst S F) | GBad (x : cexn) (p : cst S F).

  Definition g_set (p : cst S F) (hs : list S) (cs : list nat) : cst S F := mkC (c_core p) (c_files p) [] cs hs.
  Definition g_skip (p : cst S F) (hs : list S) (cs : list nat) : goutcome :=
    match c_close O hs with
    | (Bad x, hs1) => GBad x (g_set p hs1 cs)
    | (Good _, hs1) => GDone (g_set p hs1 cs)
    end.
  Definition g_after (p : cst S F) (i : finfo) (r : cr unit * ghs) : goutcome :=
    match r with
    | (Bad CSkip, (hs, cs)) => g_skip p hs cs
    | (Bad x, (hs, cs)) => GBad x (g_set p hs cs)
    | (Good _, (hs, cs)) => GDone (mkC (c_core p) (c_files p) (fi_field i) cs hs)
    end.
  Definition g_file (i : finfo) (len : option Z) (b64 : bool) (payload : str) (p : cst S F) (o : goutcome) : Prop :=
    let cs0 := map (fun _ => 0) (c_hs p) in
    match c_new O i len (c_hs p) with
    | (Bad CSkip, hs) => o = g_skip p hs cs0
    | (Bad x, hs) => o = GBad x (g_set p hs cs0)
    | (Good _, hs) => exists r, gfed b64 payload (hs, cs0) r /\ o = g_after p i r
    end.

  Definition gstep (p : cst S F) (t : str) (o : goutcome) : Prop :=
    match classify reg t with
    | Err e => o = GBad (CExn e) p
    | Ok (ty, m, payload) =>
        match c_finish O truthy p with
        | (Bad x, p1) => o = GBad x p1
        | (Good _, p1) =>
            match part_action name2cp ty m with
            | Err e => o = GBad (CExn e) p1
            | Ok ASkip => o = GSkip p1
            | Ok (AField name tenc) =>
                o = match field_step reg st name tenc m (c_core p1) payload with
                    | Ok core => GDone (mkC core (c_files p1) (c_old p1) (c_counters p1) (c_hs p1))
                    | Err e => GBad (CExn e) p1
                    end
            | Ok (AFile i b64) => g_file i (part_length m) b64 payload p1 o
            end
        end
    end.

  Inductive gparses (D : str) : str -> cst S F -> cr unit * cst S F -> Prop :=
  | gp_end p : gparses D [] p (Good tt, p)
  | gp_bad r t af p x p' : r <> [] -> block D r t af -> gstep p t (GBad x p') -> gparses D r p (Bad x, p')
  | gp_done r t af p p' o : r <> [] -> block D r t af -> gstep p t (GDone p') ->
      gparses D (odef af) p' o -> gparses D r p o
  | gp_skip r t af p p' o : r <> [] -> block D r t af -> gstep p t (GSkip p') ->
      gparses D (odef af) p' o -> gparses D r p o
  | gp_leak r t af p p' m o : r <> [] -> block D r t af -> gstep p t (GSkip p') ->
      head_size <= m <= length t -> gparses D (skipn m r) p' o -> gparses D r p o.
End Sem.
Arguments goutcome : clear implicits.
Arguments GDone {S F}. Arguments GSkip {S F}. Arguments GBad {S F}.

Section Loop.
  Context {R : Type} (rd : nat -> R -> res str * R).
  Context (reg : registry) (name2cp : str -> option N).
  Context (st : mset) (D : str) (fuel : nat) (q : chunkiter R) (N : nat).
  Context {S F X : Type} (O : ops S F X) (truthy : F -> bool).
  Notation P1 := (chunkiter R).
  Notation L1 := (lstream P1).
  Notation L2 := (lstream (biter P1)).
  Notation pn1 := (ci_next rd).
  Notation bnext := (bi_next pn1 fuel).
  Notation live1 := (live pn1 q N).
  Notation part1 := (part pn1 q N D).
  Notation left_to := (left_to rd q N).
  Context (Hfuel : N + 3 <= fuel) (HD : Dok D).

  (** raised by a handler on purpose *)
  Definition signal (x : cexn) : Prop := match x with CExn _ => False | _ => True end.
  (** the body can still be read to its end *)
  Definition alive (s : L2) : Prop := exists b x, ls_prod s = Some b /\ live1 (bi_stream b) x.
  Lemma part_alive r0 t af k s rest : part1 r0 t af k s rest -> alive s.
  Proof. intros [b t' Hb [y r H1 H2 H3 _ _ _ _ _|y _ _ _ _ H3 _] _ _ _]; eexists b, _; (split; [exact Hb|exact H3]). Qed.
  Lemma left_alive x s : left_to x s -> alive s.
  Proof. intros (b & Hb & _ & HL). exists b, x. easy. Qed.

  (** [exhaust(field_stream)] *)
  Lemma drain_spec r0 t af k : 1 <= k <= 40 -> length r0 + 4 <= fuel -> forall n s rest,
    part1 r0 t af k s rest -> length rest + fin s + 1 <= n ->
    exists s', ls_drain bnext n s = (Ok tt, s') /\ left_to (odef af) s'.
  Proof.
    intros Hk HF. induction n as [|n IH]; intros s rest HP Hn; [lia|]. cbn [ls_drain].
    pose proof (part_next pn1 q N D fuel Hfuel HD r0 t af k s rest HP) as HN.
    pose proof (fin_next_le rd fuel N Hfuel s) as Hfin.
    destruct (ls_next bnext s) as [[c| |e] s1] eqn:EN; [| |easy].
    - destruct HN as (rest1 & -> & HP1). cbn [snd] in Hfin. rewrite app_length in *. apply (IH s1 rest1 HP1).
      destruct c as [|x c]; [|cbn [length] in *; lia].
      destruct (part_next_empty rd D fuel q N Hfuel HD _ _ _ _ _ _ _ HP EN). cbn [length] in *. lia.
    - destruct HN as (-> & HP1 & HF1). exists s1. split; [easy|]. now apply (finished_left rd D q N _ _ _ _ _ _ HP1).
  Qed.

  Lemma c_file_spec r0 t af k b64 : 1 <= k <= 40 -> length r0 + 4 <= fuel -> forall n hs cs s rest,
    part1 r0 t af k s rest -> length rest <= length r0 -> length rest + fin s + 1 <= n ->
    exists o s', c_file_loop rd fuel O n b64 hs cs s = (o, s') /\ gfed O b64 rest (hs, cs) o /\
      (fst o = Good tt -> left_to (odef af) s') /\
      (forall x, fst o = Bad x -> signal x -> exists rest', part1 r0 t af k s' rest' /\ length rest' <= length rest).
  Proof.
    intros Hk HF. induction n as [|n IH]; intros hs cs s rest HP Hl Hn; [lia|].
    cbn [c_file_loop].
    pose proof (part_next pn1 q N D fuel Hfuel HD r0 t af k s rest HP) as HN.
    pose proof (fin_next_le rd fuel N Hfuel s) as Hfin.
    destruct (ls_next bnext s) as [[c| |e] s1] eqn:EN; [| |easy].
    - destruct HN as (rest1 & -> & HP1). cbn [snd] in Hfin. rewrite app_length in *.
      assert (Hdec : length rest1 + fin s1 + 1 <= n).
      { destruct c as [|x c]; [|cbn [length] in *; lia].
        destruct (part_next_empty rd D fuel q N Hfuel HD _ _ _ _ _ _ _ HP EN). cbn [length] in *. lia. }
      destruct b64.
      + pose proof (fill_spec rd D fuel q N Hfuel HD r0 t af k Hk HF fuel (remove_ws c) s1 rest1 HP1 ltac:(lia)) as HS.
        destruct (b64_fill rd fuel fuel (remove_ws c) s1) as [[g|e] s2].
        * destruct HS as (a & rest2 & -> & -> & Hm & HP2 & Hf2).
          rewrite <- remove_ws_app in *. rewrite app_assoc. rewrite app_length in *.
          destruct (b64decode (remove_ws (c ++ a))) as [d|e] eqn:ED.
          -- destruct (c_feed O d hs cs) as [[[]|x] [hs' cs']] eqn:EF.
             ++ cbn [fst snd]. destruct (IH hs' cs' s2 rest2 HP2 ltac:(lia) ltac:(lia)) as (o & s' & E & HFd & HL & HK).
                exists o, s'. split; [easy|]. split; [|split; [easy|]].
                ** eapply gfed_b64; [exact Hm|exact ED|exact EF|exact HFd].
                ** intros x E1 HX. destruct (HK x E1 HX) as (rest' & K1 & K2). exists rest'. split; [easy|lia].
             ++ exists (Bad x, (hs', cs')), s2. split; [easy|]. split; [|split; [easy|]].
                ** eapply gfed_b64_bad; [exact Hm|exact ED|exact EF].
                ** intros _ _ _. exists rest2. split; [easy|]. lia.
          -- exists (Bad (CExn TypeError), (hs, cs)), s2. split; [easy|]. split; [|split; [easy|now intros x [= <-]]].
             eapply gfed_b64_err; [exact Hm|exact ED].
        * destruct HS as (-> & Hm). exists (Bad (CExn OutOfFuel), (hs, cs)), s2. split; [easy|].
          split; [|split; [easy|now intros x [= <-]]].
          apply gfed_b64_hang. now rewrite remove_ws_app.
      + destruct (c_feed O c hs cs) as [[[]|x] [hs' cs']] eqn:EF.
        * cbn [fst snd]. destruct (IH hs' cs' s1 rest1 HP1 ltac:(lia) Hdec) as (o & s' & E & HFd & HL & HK).
          exists o, s'. split; [easy|]. split; [|split; [easy|]].
          -- eapply gfed_plain; [exact EF|exact HFd].
          -- intros x E1 HX. destruct (HK x E1 HX) as (rest' & K1 & K2). exists rest'. split; [easy|lia].
        * exists (Bad x, (hs', cs')), s1. split; [easy|]. split; [|split; [easy|]].
          -- apply gfed_plain_bad. exact EF.
          -- intros _ _ _. exists rest1. split; [easy|]. lia.
    - destruct HN as (-> & HP1 & HF1). exists (Good tt, (hs, cs)), s1. split; [easy|]. split; [apply gfed_end|]. split; [|easy].
      intros _. now apply (finished_left rd D q N _ _ _ _ _ _ HP1).
  Qed.

  Definition after (af : option str) (s' : L2) (o : goutcome S F) : Prop :=
    match o with GDone _ => left_to (odef af) s' | GSkip _ => False | GBad x _ => signal x -> alive s' end.
  Definition went (o : goutcome S F) (r : cr unit * cst S F) : Prop :=
    match o with GDone p | GSkip p => r = (Good tt, p) | GBad x p => r = (Bad x, p) end.

  Lemma c_deliver_spec r0 t af s i len b64 payload p : length r0 + 4 <= fuel -> length payload <= length r0 ->
    part1 r0 t af 3 s payload ->
    exists o r s', c_deliver rd fuel O i len b64 p s = (r, s') /\ g_file O i len b64 payload p o /\ went o r /\
      after af s' o.
  Proof.
    intros HF Hl HP. unfold c_deliver, g_file. cbv zeta.
    assert (HSk : forall hs cs s1 rest, part1 r0 t af 3 s1 rest -> length rest <= length payload ->
      exists r s', match c_close O hs with
         | (Bad x, hs1) => ((Bad x, mkC (c_core p) (c_files p) [] cs hs1), s1)
         | (Good _, hs1) => match ls_drain bnext fuel s1 with
                            | (Err e, s2) => ((Bad (CExn e), mkC (c_core p) (c_files p) [] cs hs1), s2)
                            | (Ok _, s2) => ((Good tt, mkC (c_core p) (c_files p) [] cs hs1), s2)
                            end
         end = (r, s') /\ went (g_skip O p hs cs) r /\
         after af s' (g_skip O p hs cs)).
    { intros hs cs s1 rest HP1 Hr. unfold g_skip. destruct (c_close O hs) as [[u|x] hs1].
      - pose proof (fin_le1 s1). destruct (drain_spec r0 t af 3 ltac:(lia) HF fuel s1 rest HP1 ltac:(lia)) as (s' & E & HL).
        rewrite E. eexists _, s'. split; [reflexivity|]. split; [reflexivity|exact HL].
      - eexists _, s1. split; [reflexivity|]. split; [reflexivity|]. intros _. exact (part_alive _ _ _ _ _ _ HP1). }
    destruct (c_new O i len (c_hs p)) as [[u|x] hs] eqn:EN.
    - pose proof (fin_le1 s).
      destruct (c_file_spec r0 t af 3 b64 ltac:(lia) HF fuel hs (map (fun _ => 0) (c_hs p)) s payload HP Hl ltac:(lia))
        as (o & s' & E & HFd & HL & HK).
      rewrite E. destruct o as [[u1|x] [hs' cs']].
      + exists (g_after O p i (Good u1, (hs', cs'))). eexists _, s'. split; [reflexivity|]. split; [eexists; split; [exact HFd|reflexivity]|].
        split; [reflexivity|]. destruct u1. now apply HL.
      + destruct x as [e| | reset|]; try (eexists _, _, s'; split; [reflexivity|];
          split; [eexists; split; [exact HFd|reflexivity]|]; split; [reflexivity|]; intros HX;
          destruct (HK _ eq_refl HX) as (rest' & HP2 & _); exact (part_alive _ _ _ _ _ _ HP2)).
        destruct (HK CSkip eq_refl I) as (rest' & HP2 & Hr2). destruct (HSk hs' cs' s' rest' HP2 Hr2) as (r & s2 & E2 & HW & HO).
        exists (g_skip O p hs' cs'), r, s2. split; [exact E2|]. split; [eexists; split; [exact HFd|reflexivity]|]. split; [exact HW|exact HO].
    - destruct x as [e| | reset|]; try (eexists _, _, s; split; [reflexivity|]; split; [reflexivity|]; split; [reflexivity|]; intros _; exact (part_alive _ _ _ _ _ _ HP)).
      destruct (HSk hs (map (fun _ => 0) (c_hs p)) s payload HP ltac:(lia)) as (r & s2 & E2 & HW & HO).
      exists (g_skip O p hs (map (fun _ => 0) (c_hs p))), r, s2. split; [exact E2|]. split; [reflexivity|]. split; [exact HW|exact HO].
  Qed.

  Lemma c_part_spec r0 t af s ty m payload p : length r0 + 4 <= fuel -> length payload <= length r0 ->
    (ty <> RAW -> part1 r0 t af 3 s payload) ->
    exists o r s', c_part rd reg name2cp st fuel O ty m p s = (r, s') /\
      match part_action name2cp ty m with
      | Err e => o = GBad (CExn e) p
      | Ok ASkip => o = GSkip p
      | Ok (AField name tenc) => o = match field_step reg st name tenc m (c_core p) payload with
                                     | Ok core => GDone (mkC core (c_files p) (c_old p) (c_counters p) (c_hs p))
                                     | Err e => GBad (CExn e) p
                                     end
      | Ok (AFile i b64) => g_file O i (part_length m) b64 payload p o
      end /\ went o r /\
      match o with GSkip _ => s' = s | _ => after af s' o end.
  Proof.
    intros HF Hl HP. unfold c_part, part_action.
    destruct (dget CDISP m) as [[v disp]|]; [|now exists (GSkip p), (Good tt, p), s].
    destruct (dget !"name" disp) as [raw|]; [|now exists (GSkip p), (Good tt, p), s].
    destruct (to_native (pstrip raw)) as [name|e]; cbn [bind]; [|now exists (GBad (CExn e) p), (Bad (CExn e), p), s].
    destruct ty; [now exists (GSkip p), (Good tt, p), s| |].
    - specialize (HP ltac:(easy)). unfold c_read_file. fold (filename_of name2cp disp).
      destruct (filename_of name2cp disp) as [fn|e]; cbn [bind]; [|now exists (GBad (CExn e) p), (Bad (CExn e), p), s].
      destruct fn as [|x fn]; [now exists (GSkip p), (Good tt, p), s|].
      fold (ctype_of m). fold (tenc_of m). fold (part_length m). destruct (ctype_of m) as [ct extra]. cbn [fst snd].
      fold (is_b64enc (tenc_of m)).
      destruct (c_deliver_spec r0 t af s (mkInfo name (x :: fn) (ustrip ct) (dget !"charset" extra) extra (tenc_of m)) (part_length m)
        (is_b64enc (tenc_of m)) payload p HF Hl HP) as (o & r & s' & E & HG & HW & HO).
      exists o, r, s'. split; [exact E|]. split; [exact HG|]. split; [exact HW|]. now destruct o.
    - specialize (HP ltac:(easy)).
      destruct (field_spec rd reg st D fuel q N Hfuel HD r0 t af 3 s payload name (tenc_of m) m (c_core p) HP ltac:(lia) HF) as (s' & E & HL).
      unfold tenc_of in *. rewrite E. destruct (field_step reg st name _ m (c_core p) payload) as [core|e].
      + eexists (GDone _), _, s'. split; [reflexivity|]. split; [reflexivity|]. split; [reflexivity|]. now apply (HL core).
      + eexists (GBad _ _), _, s'. split; [reflexivity|]. split; [reflexivity|]. split; [reflexivity|easy].
  Qed.

  Theorem c_loop_spec : forall n r p s, live1 s r -> okA s -> length r + 4 <= fuel -> length r + 1 <= n ->
    exists o s', c_loop rd reg name2cp st D fuel O truthy n p s = (o, s') /\
      gparses reg name2cp st O truthy D r p o /\
      (fst o = Good tt -> ls_prod s' = Some q) /\
      (forall x, fst o = Bad x -> signal x -> exists r', live1 s' r').
  Proof.
    induction n as [|n IH]; intros r p s HL HA HF Hn; [lia|].
    cbn [c_loop].
    pose proof (bi_init_spec pn1 q N s r D fuel HL HA Hfuel) as HB.
    destruct (bi_init pn1 fuel s D) as [[b|e] s1].
    2:{ destruct HB as (-> & -> & _ & _ & Hq). exists (Good tt, p), s1. split; [easy|]. split; [apply gp_end|]. split; easy. }
    destruct HB as (Hr & -> & HL1 & HC1).
    destruct (block_exists D r) as (t & af & Hbl).
    pose proof (part_init pn1 q N D r af t s1 HC1 HL1 Hbl) as HP.
    pose proof (block_le D r t af Hbl) as Hle.
    pose proof (block_shrinks D fuel N Hfuel HD r t af Hr Hbl) as Hsh.
    destruct (pbs_spec rd reg D fuel q N Hfuel HD r t af (ls_init (mkBI s1 D false) None) HP HF Hle) as (s2 & HLA & HCl).
    destruct (classify reg t) as [[[ty m] payload]|e] eqn:EC.
    2:{ rewrite HCl. eexists (Bad (CExn e), p), _. split; [easy|]. split; [|split; [easy|now intros x [= <-]]].
        apply (gp_bad _ _ _ _ _ _ r t af); [easy|easy|]. unfold gstep. now rewrite EC. }
    destruct HCl as (E2 & HP2). rewrite E2.
    assert (HAl : alive s2) by (destruct HLA as [H|(k & _ & H)]; exact (left_alive _ _ H)).
    destruct (c_finish O truthy p) as [[u|x] p1] eqn:EFin.
    2:{ eexists (Bad x, p1), _. split; [easy|]. split; [|split; [easy|intros _ _ _; destruct HAl as (b & r' & Hb & HL'); exists r'; unfold outer_of; now rewrite Hb]].
        apply (gp_bad _ _ _ _ _ _ r t af); [easy|easy|]. unfold gstep. now rewrite EC, EFin. }
    assert (Hpl : length payload <= length r).
    { unfold classify in EC. destruct (find crlfcrlf (firstn head_size t)) as [i|].
      - destruct (header_meta reg _ RAW []) as [[ty' m']|]; [|easy]. injection EC as _ _ <-.
        rewrite skipn_length. lia.
      - injection EC as _ _ <-. cbn. lia. }
    destruct (c_part_spec r t af s2 ty m payload p1 HF Hpl HP2) as (o & rr & s3 & E3 & HO & HW & HX).
    rewrite E3.
    assert (HS : gstep reg name2cp st O truthy p t o) by (unfold gstep; now rewrite EC, EFin). clear HO.
    destruct o as [p2|p2|x p2]; cbn [went] in HW; subst rr.
    - destruct HX as (b & Hb & HA3 & HL3). unfold outer_of. rewrite Hb.
      destruct (IH (odef af) p2 (bi_stream b) HL3 HA3 ltac:(lia) ltac:(lia)) as (o' & s' & E & HPa & HQ & HQ').
      exists o', s'. split; [easy|]. split; [|easy]. now apply (gp_done _ _ _ _ _ _ r t af p p2).
    - subst s3. destruct HLA as [(b & Hb & HA3 & HL3)|(k & Hk & b & Hb & HA3 & HL3)]; unfold outer_of; rewrite Hb.
      + destruct (IH (odef af) p2 (bi_stream b) HL3 HA3 ltac:(lia) ltac:(lia)) as (o' & s' & E & HPa & HQ & HQ').
        exists o', s'. split; [easy|]. split; [|easy]. now apply (gp_skip _ _ _ _ _ _ r t af p p2).
      + assert (length (skipn k r) < length r).
        { rewrite skipn_length. unfold head_size in *. lia. }
        destruct (IH (skipn k r) p2 (bi_stream b) HL3 HA3 ltac:(lia) ltac:(lia)) as (o' & s' & E & HPa & HQ & HQ').
        exists o', s'. split; [easy|]. split; [|easy]. now apply (gp_leak _ _ _ _ _ _ r t af p p2 k).
    - eexists (Bad x, p2), _. split; [easy|]. split; [|split; [easy|intros y [= <-] HY; destruct (HX HY) as (b & r' & Hb & HL'); exists r'; unfold outer_of; now rewrite Hb]]. now apply (gp_bad _ _ _ _ _ _ r t af).
  Qed.
End Loop.
