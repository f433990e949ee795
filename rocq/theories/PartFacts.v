(** * The stream of one part: LazyStream(BoundaryIter(outer stream)) *)
From Verif Require Import Py Spec PyFacts StreamModel StreamSpec StreamFacts StreamCalm
  BoundaryModel BoundarySpec BoundaryFacts.

(** ** Producers under reading *)
Section Prod.
  Context {P : Type} (pnext : P -> nxt * P).
  Notation LS := (lstream P).
  Context (I : P -> Prop) (HI : forall p, I p -> I (snd (pnext p))).
  Definition prodI (s : LS) : Prop := exists p, ls_prod s = Some p /\ I p.

  Lemma next_prodI s : prodI s -> prodI (snd (ls_next pnext s)).
  Proof.
    intros (p & Hp & H). unfold ls_next. destruct (ls_left s).
    - rewrite Hp. pose proof (HI p H). destruct (pnext p) as [[c| |e] p']; cbn in *; now exists p'.
    - now exists p.
  Qed.
  Lemma unget_prodI b s : prodI s -> prodI (snd (ls_unget b s)).
  Proof.
    intros (p & Hp & H). unfold ls_unget. destruct b; [now exists p|].
    destruct (Nat.ltb _ _); now exists p.
  Qed.
  Lemma read_loop_prodI : forall fuel m out s, prodI s -> prodI (snd (ls_read_loop pnext fuel m out s)).
  Proof.
    induction fuel as [|fuel IH]; intros m out s H; [easy|]. cbn [ls_read_loop].
    destruct (Z.eqb m 0); [easy|]. destruct (Z.ltb m 0); [easy|].
    pose proof (next_prodI s H) as HN. destruct (ls_next pnext s) as [[c| |e] s1]; [|easy|easy].
    pose proof (unget_prodI (skipn (Z.to_nat m) c) s1 HN) as HU.
    destruct (ls_unget (skipn (Z.to_nat m) c) s1) as [[u|e] s2]; [|easy]. now apply IH.
  Qed.
  Lemma join_prodI : forall fuel out s, prodI s -> prodI (snd (ls_join pnext fuel out s)).
  Proof.
    induction fuel as [|fuel IH]; intros out s H; [easy|]. cbn [ls_join].
    pose proof (next_prodI s H) as HN. destruct (ls_next pnext s) as [[c| |e] s1]; [|easy|easy]. now apply IH.
  Qed.
  Lemma read_prodI fuel n s : prodI s -> prodI (snd (ls_read pnext fuel n s)).
  Proof.
    intros H. unfold ls_read. destruct (match n with None => ls_remaining s | Some n => Some n end);
      [now apply read_loop_prodI|now apply join_prodI].
  Qed.
End Prod.

(** reading past the end leaves the exhausted producer *)
Section Short.
  Context {P : Type} (pnext : P -> nxt * P).
  Lemma next_final s p cs q : ls_prod s = Some p -> yields pnext p cs None q ->
    match ls_next pnext s with
    | (Chunk c, s') => exists p' cs', ls_prod s' = Some p' /\ yields pnext p' cs' None q /\
                       ls_left s ++ concat cs = c ++ concat cs' /\ ls_left s' = []
    | (Stop, s') => ls_prod s' = Some q
    | (Raise _, _) => False
    end.
  Proof.
    intros Hp Hy. unfold ls_next. destruct (ls_left s) eqn:El.
    - rewrite Hp. inversion Hy as [p0 q0 G1 G2|p0 q0 e0 G1|p0 c0 p1 cs0 e0 q0 G1 G2]; subst; rewrite G1; [easy|].
      exists p1, cs0. easy.
    - exists p, cs. easy.
  Qed.
  Lemma read_loop_short : forall fuel m out s p cs q s' b, ls_prod s = Some p -> yields pnext p cs None q ->
    (zlen (ls_left s ++ concat cs) < m)%Z -> ls_read_loop pnext fuel m out s = (Ok b, s') ->
    ls_prod s' = Some q.
  Proof.
    induction fuel as [|fuel IH]; intros m out s p cs q s' b Hp Hy Hm HR; [easy|].
    cbn [ls_read_loop] in HR. unfold zlen in Hm. destruct (Z.eqb_spec m 0); [lia|]. destruct (Z.ltb_spec m 0); [lia|].
    pose proof (next_final s p cs q Hp Hy) as HN. destruct (ls_next pnext s) as [[c| |e] s1]; [| |easy].
    - destruct HN as (p' & cs' & H1 & H2 & H3 & H4). rewrite H3, app_length in Hm.
      rewrite skipn_all2 in HR by lia. cbn [ls_unget] in HR.
      eapply IH; [exact H1|exact H2| |exact HR].
      rewrite H4. unfold zlen. cbn [app]. rewrite firstn_all2 by lia. lia.
    - now injection HR as _ <-.
  Qed.
  Lemma join_short : forall fuel out s p cs q s' b, ls_prod s = Some p -> yields pnext p cs None q ->
    ls_join pnext fuel out s = (Ok b, s') -> ls_prod s' = Some q.
  Proof.
    induction fuel as [|fuel IH]; intros out s p cs q s' b Hp Hy HR; [easy|]. cbn [ls_join] in HR.
    pose proof (next_final s p cs q Hp Hy) as HN. destruct (ls_next pnext s) as [[c| |e] s1]; [| |easy].
    - destruct HN as (p' & cs' & H1 & H2 & H3 & H4). eapply IH; eassumption.
    - now injection HR as _ <-.
  Qed.
End Short.

Section Part.
  Context {P : Type} (pnext : P -> nxt * P) (q : P) (N : nat) (D : str).
  Notation L1 := (lstream P).
  Notation L2 := (lstream (biter P)).

  (** [r0]: outer content at the start of the part; [t0]: the part; [af]: what follows.
      [t]: what the iterator still delivers. *)
  Inductive bst (r0 t0 : str) (af : option str) (b : biter P) (t : str) : Prop :=
  | bst_open y r : bi_done b = false -> bi_boundary b = D -> live pnext q N (bi_stream b) r ->
      okC (bi_stream b) -> (y <> [] -> okA (bi_stream b)) -> block D r t af ->
      r0 = y ++ r -> t0 = y ++ t -> bst r0 t0 af b t
  | bst_done y : bi_done b = true -> bi_boundary b = D -> t = [] -> t0 = y ++ t ->
      live pnext q N (bi_stream b) (odef af) -> okA (bi_stream b) -> bst r0 t0 af b t.

  Definition Dok : Prop := nl_free D /\ 3 <= length D.

  Section Fuel.
    Context (fuel : nat) (Hfuel : N + 3 <= fuel) (HD : Dok).
    Notation bnext := (bi_next pnext fuel).

    Lemma bst_next r0 t0 af b t : bst r0 t0 af b t ->
      match bnext b with
      | (Chunk c, b') => exists t', t = c ++ t' /\ bst r0 t0 af b' t'
      | (Stop, b') => t = [] /\ bst r0 t0 af b' [] /\ bi_done b' = true /\ bnext b' = (Stop, b')
      | (Raise _, _) => False
      end.
    Proof.
      intros [y r H1 H2 H3 H4 H4' H5 H6 H7|y H1 H2 H3 H3' H4 H5].
      - destruct HD as [D1 D2].
        pose proof (bi_next_step pnext q N D b r fuel D1 D2 H2 H1 H3 H4 Hfuel) as HS.
        destruct (bnext b) as [[c| |e] b']; [| |easy].
        + destruct HS as (E1 & E2 & [(E3 & af' & E4 & E5)|(E3 & E4 & r' & E5 & E6 & E7)]).
          * destruct (block_det _ _ _ _ _ _ H5 E4) as [-> ->]. exists []. rewrite app_nil_r. split; [easy|].
            apply (bst_done _ _ _ _ _ (y ++ c)); try easy. now rewrite app_nil_r.
          * destruct (block_exists D r') as (t' & af' & HB). specialize (E7 _ _ HB).
            destruct (block_det _ _ _ _ _ _ H5 E7) as [-> ->]. exists t'. split; [easy|].
            apply (bst_open _ _ _ _ _ (y ++ c) r'); try easy.
            -- now apply okA_okC.
            -- now rewrite H6, E5, <- app_assoc.
            -- now rewrite H7, <- app_assoc.
        + destruct HS as (-> & E1 & E2 & E3 & E4).
          destruct (block_nil D t af) as [-> ->]; [destruct D; [now cbn in D2|easy]|easy|].
          split; [easy|]. split; [now apply (bst_done _ _ _ _ _ y)|]. split; [easy|].
          unfold bi_next. now rewrite E1.
      - unfold bi_next. rewrite H1. split; [easy|]. split; [now apply (bst_done _ _ _ _ _ y); subst|].
        split; [easy|]. rewrite H1. easy.
    Qed.

    Lemma bst_yields_aux : forall n r0 t0 af b t,
      (exists y r, bi_done b = false /\ bi_boundary b = D /\ live pnext q N (bi_stream b) r /\
        okC (bi_stream b) /\ block D r t af /\ r0 = y ++ r /\ t0 = y ++ t /\ length r <= n /\
        (y <> [] -> okA (bi_stream b))) ->
      exists cs b', yields bnext b cs None b' /\ concat cs = t /\ length cs <= n + 1 /\
                    bst r0 t0 af b' [] /\ bi_done b' = true.
    Proof.
      induction n as [|n IH]; intros r0 t0 af b t (y & r & H1 & H2 & H3 & H4 & H5 & H6 & H7 & H8 & H9);
        destruct HD as [D1 D2];
        pose proof (bi_next_step pnext q N D b r fuel D1 D2 H2 H1 H3 H4 Hfuel) as HS;
        destruct (bnext b) as [[c| |e] b'] eqn:EB; [| |easy| | |easy].
      1, 3: destruct HS as (E1 & E2 & [(E3 & af' & E4 & E5)|(E3 & E4 & r' & E5 & E6 & E7)]).
      - destruct (block_det _ _ _ _ _ _ H5 E4) as [-> ->]. exists [c], b'. repeat split; try easy.
        + eapply y_chunk; [exact EB|]. assert (bnext b' = (Stop, b')) by (unfold bi_next; now rewrite E3).
          eapply y_stop; eassumption.
        + cbn. now rewrite app_nil_r.
        + apply (bst_done _ _ _ _ _ (y ++ c)); try easy. now rewrite app_nil_r.
      - exfalso. destruct r; [|cbn in H8; lia]. symmetry in E5. now apply app_eq_nil in E5.
      - destruct (block_det _ _ _ _ _ _ H5 E4) as [-> ->]. exists [c], b'. repeat split; try easy.
        + eapply y_chunk; [exact EB|]. assert (bnext b' = (Stop, b')) by (unfold bi_next; now rewrite E3).
          eapply y_stop; eassumption.
        + cbn. now rewrite app_nil_r.
        + cbn. lia.
        + apply (bst_done _ _ _ _ _ (y ++ c)); try easy. now rewrite app_nil_r.
      - destruct (block_exists D r') as (t' & af' & HB). specialize (E7 _ _ HB).
        destruct (block_det _ _ _ _ _ _ H5 E7) as [-> ->].
        destruct (IH r0 t0 af' b' t') as (cs & b2 & Y1 & Y2 & Y3 & Y4 & Y5).
        { exists (y ++ c), r'. do 3 (split; [easy|]). split; [now apply okA_okC|]. split; [easy|].
          split; [now rewrite H6, E5, <- app_assoc|]. split; [now rewrite H7, <- app_assoc|].
          split; [|easy]. subst r. rewrite app_length in H8. destruct c; [easy|]. cbn in H8. lia. }
        exists (c :: cs), b2. repeat split; try easy.
        + eapply y_chunk; eassumption.
        + cbn. now rewrite Y2.
        + cbn. lia.
      - destruct HS as (-> & E1 & E2 & E3 & E4).
        destruct (block_nil D t af) as [-> ->]; [destruct D; [now cbn in D2|easy]|easy|].
        assert (bnext b' = (Stop, b')) by (unfold bi_next; now rewrite E1).
        exists [], b'. repeat split; try easy; [now apply y_stop with (q := b')|cbn; lia|].
        now apply (bst_done _ _ _ _ _ y).
      - destruct HS as (-> & E1 & E2 & E3 & E4).
        destruct (block_nil D t af) as [-> ->]; [destruct D; [now cbn in D2|easy]|easy|].
        assert (bnext b' = (Stop, b')) by (unfold bi_next; now rewrite E1).
        exists [], b'. repeat split; try easy; [now apply y_stop with (q := b')|cbn; lia|].
        now apply (bst_done _ _ _ _ _ y).
    Qed.
    Lemma bst_yields r0 t0 af b t : bst r0 t0 af b t ->
      exists cs b', yields bnext b cs None b' /\ concat cs = t /\ length cs <= length r0 + 1 /\
                    bst r0 t0 af b' [] /\ bi_done b' = true.
    Proof.
      intros [y r H1 H2 H3 H4 H4' H5 H6 H7|y H1 H2 H3 H3' H4 H5].
      - destruct (bst_yields_aux (length r0) r0 t0 af b t) as (cs & b' & HH); [|now exists cs, b'].
        exists y, r. subst r0. rewrite app_length. do 7 (split; [easy|]). split; [lia|easy].
      - exists [], b. assert (bnext b = (Stop, b)) by (unfold bi_next; now rewrite H1).
        repeat split; try easy; [now apply y_stop with (q := b)|cbn; lia|].
        apply (bst_done _ _ _ _ _ y); try easy. now subst t.
    Qed.

    (** ** The LazyStream over it *)
    Inductive part (r0 t0 : str) (af : option str) (k : nat) (s : L2) (rest : str) : Prop :=
    | part_intro b t : ls_prod s = Some b -> bst r0 t0 af b t -> rest = ls_left s ++ t ->
        ls_remaining s = None -> calmk k s -> part r0 t0 af k s rest.
    (** the iterator has met the delimiter or the end *)
    Definition finished (s : L2) : Prop := exists b, ls_prod s = Some b /\ bi_done b = true.

    Lemma part_sat r0 t0 af k s rest : part r0 t0 af k s rest -> sat bnext (length r0 + 1) k s rest.
    Proof.
      intros [b t H1 H2 H3 H4 H5]. destruct (bst_yields _ _ _ _ _ H2) as (cs & b' & Y1 & Y2 & Y3 & Y4 & Y5).
      econstructor; try eassumption. now rewrite Y2.
    Qed.
    Lemma sat_part r0 t0 af k M s rest : sat bnext M k s rest ->
      prodI (fun b => exists t, bst r0 t0 af b t) s -> part r0 t0 af k s rest.
    Proof.
      intros [p cs q' H1 H2 H3 H4 H5 H6] (b & Hb & t & Ht). rewrite Hb in H1. injection H1 as <-.
      destruct (bst_yields _ _ _ _ _ Ht) as (cs' & b' & Y1 & Y2 & Y3 & Y4 & Y5).
      destruct (yields_det _ _ _ _ _ H2 _ _ _ Y1) as (-> & _ & _).
      econstructor; try eassumption. now rewrite <- Y2.
    Qed.
    Lemma bst_inv r0 t0 af b : (exists t, bst r0 t0 af b t) -> exists t, bst r0 t0 af (snd (bnext b)) t.
    Proof.
      intros (t & H). pose proof (bst_next _ _ _ _ _ H) as HN.
      destruct (bnext b) as [[c| |e] b']; cbn; [destruct HN as (t' & _ & HN); now exists t'| |easy].
      exists []. easy.
    Qed.
    Lemma part_prod r0 t0 af k s rest : part r0 t0 af k s rest -> prodI (fun b => exists t, bst r0 t0 af b t) s.
    Proof. intros [b t H1 H2 H3 H4 H5]. exists b. split; [easy|]. now exists t. Qed.

    Lemma part_mono r0 t0 af k k' s rest : k <= k' -> part r0 t0 af k s rest -> part r0 t0 af k' s rest.
    Proof. intros Hk [b t H1 H2 H3 H4 H5]. econstructor; try eassumption. now apply (calmk_mono k). Qed.

    Lemma part_read r0 t0 af k s rest f n : part r0 t0 af k s rest -> 1 <= k <= 40 -> length r0 + 4 <= f ->
      exists s', ls_read bnext f (Some (Z.of_nat n)) s = (Ok (firstn n rest), s') /\
                 part r0 t0 af k s' (skipn n rest) /\ (length rest < n -> finished s').
    Proof.
      intros HP Hk Hf. pose proof (part_sat _ _ _ _ _ _ HP) as HS.
      destruct (sat_read bnext _ k s rest f n HS Hk) as (s' & E & HS'); [lia|].
      exists s'. split; [exact E|]. split.
      - eapply sat_part; [exact HS'|].
        pose proof (read_prodI bnext _ (bst_inv r0 t0 af) f (Some (Z.of_nat n)) s (part_prod _ _ _ _ _ _ HP)) as HI.
        now rewrite E in HI.
      - intros Hn. destruct HP as [b t H1 H2 H3 H4 H5].
        destruct (bst_yields _ _ _ _ _ H2) as (cs & b' & Y1 & Y2 & Y3 & Y4 & Y5).
        exists b'. split; [|easy]. unfold ls_read in E.
        eapply read_loop_short; [exact H1|exact Y1| |exact E]. unfold zlen. rewrite Y2, <- H3. lia.
    Qed.
    Lemma part_read_all r0 t0 af k s rest f : part r0 t0 af k s rest -> length r0 + 3 <= f ->
      exists s', ls_read bnext f None s = (Ok rest, s') /\ part r0 t0 af k s' [] /\ finished s'.
    Proof.
      intros HP Hf. pose proof (part_sat _ _ _ _ _ _ HP) as HS.
      destruct (sat_read_all bnext _ k s rest f HS) as (s' & E & HS'); [lia|].
      exists s'. split; [exact E|]. split.
      - eapply sat_part; [exact HS'|].
        pose proof (read_prodI bnext _ (bst_inv r0 t0 af) f None s (part_prod _ _ _ _ _ _ HP)) as HI.
        now rewrite E in HI.
      - destruct HP as [b t H1 H2 H3 H4 H5].
        destruct (bst_yields _ _ _ _ _ H2) as (cs & b' & Y1 & Y2 & Y3 & Y4 & Y5).
        exists b'. split; [|easy]. unfold ls_read in E. rewrite H4 in E.
        eapply join_short; [exact H1|exact Y1|exact E].
    Qed.
    Lemma part_unget r0 t0 af k s rest b : part r0 t0 af k s rest -> k + 1 <= 40 ->
      exists s', ls_unget b s = (Ok tt, s') /\ part r0 t0 af (k + 2) s' (b ++ rest) /\
        (finished s -> finished s').
    Proof.
      intros HP Hk. pose proof (part_sat _ _ _ _ _ _ HP) as HS.
      destruct (sat_unget bnext _ k b s rest HS Hk) as (s' & E & HS' & _ & _).
      exists s'. split; [exact E|]. split.
      - eapply sat_part; [exact HS'|].
        pose proof (unget_prodI _ b s (part_prod _ _ _ _ _ _ HP)) as HI. now rewrite E in HI.
      - intros (b0 & Hb & Hd). exists b0. split; [|easy].
        pose proof (unget_cases b s) as HU. rewrite E in HU. destruct HU as (-> & _). easy.
    Qed.
    Lemma part_next r0 t0 af k s rest : part r0 t0 af k s rest ->
      match ls_next bnext s with
      | (Chunk c, s') => exists rest', rest = c ++ rest' /\ part r0 t0 af k s' rest'
      | (Stop, s') => rest = [] /\ part r0 t0 af k s' [] /\ finished s'
      | (Raise _, _) => False
      end.
    Proof.
      intros HP. pose proof (part_sat _ _ _ _ _ _ HP) as HS.
      pose proof (sat_next bnext _ k s rest HS) as HN.
      pose proof (next_prodI bnext _ (bst_inv r0 t0 af) s (part_prod _ _ _ _ _ _ HP)) as HI.
      destruct (ls_next bnext s) as [[c| |e] s'] eqn:EN; [| |easy]; cbn [snd] in HI.
      - destruct HN as (rest' & -> & HS' & _). exists rest'. split; [easy|]. eapply sat_part; eassumption.
      - destruct HN as (-> & HS' & _ & _). split; [easy|]. split; [eapply sat_part; eassumption|].
        destruct HP as [b t H1 H2 H3 H4 H5].
        destruct (bst_yields _ _ _ _ _ H2) as (cs & b' & Y1 & Y2 & Y3 & Y4 & Y5).
        pose proof (next_final bnext s b cs b' H1 Y1) as HF. rewrite EN in HF. now exists b'.
    Qed.

    (** number of chunks still to come *)
    Lemma part_chunks r0 t0 af k s rest : part r0 t0 af k s rest ->
      exists cs b', yields (ls_next bnext) s cs None b' /\ length cs <= length r0 + 2.
    Proof.
      intros [b t H1 H2 H3 H4 H5].
      destruct (bst_yields _ _ _ _ _ H2) as (cs & b' & Y1 & Y2 & Y3 & Y4 & Y5). clear H2 Y2 Y4 H3.
      assert (G : forall cs b b' s, ls_prod s = Some b -> ls_left s = [] -> yields bnext b cs None b' ->
                  exists b'', yields (ls_next bnext) s cs None b'').
      { clear. induction cs as [|c cs IH]; intros b b' s Hp Hl Hy;
          inversion Hy as [p0 q0 G1 G2|p0 q0 e0 G1|p0 c0 p1 cs0 e0 q0 G1 G2]; subst.
        - eexists. eapply y_stop; unfold ls_next.
          + rewrite Hl, Hp, G1. reflexivity.
          + cbn. rewrite G2. reflexivity.
        - destruct (IH p1 b' (mkLS (Some p1) [] (ls_pos s + zlen c)%Z [] (ls_remaining s)) eq_refl eq_refl G2) as [b'' HY].
          exists b''. eapply y_chunk; [|exact HY]. unfold ls_next. now rewrite Hl, Hp, G1. }
      destruct (ls_left s) as [|x l] eqn:El.
      - destruct (G cs b b' s H1 El Y1) as [b'' HY]. exists cs, b''. split; [easy|lia].
      - destruct (G cs b b' (mkLS (ls_prod s) [] (ls_pos s + zlen (x :: l))%Z (ls_hist s) (ls_remaining s))
                    H1 eq_refl Y1) as [b'' HY].
        exists ((x :: l) :: cs), b''. split; [|cbn; lia]. eapply y_chunk; [|exact HY].
        unfold ls_next. now rewrite El.
    Qed.

    (** ** Starting and leaving a part *)
    Lemma part_init r af t0 s : okC s -> live pnext q N s r -> block D r t0 af ->
      part r t0 af 1 (ls_init (mkBI s D false) None) t0.
    Proof.
      intros H1 H2 H3. econstructor; cbn; try reflexivity; [|apply calmk_init].
      apply (bst_open _ _ _ _ _ [] r); easy.
    Qed.
    (** the outer stream *)
    Definition outer (s : L2) (s0 : L1) : Prop := exists b, ls_prod s = Some b /\ bi_stream b = s0.
    Lemma part_done r0 t0 af k s rest : part r0 t0 af k s rest -> finished s ->
      exists b, ls_prod s = Some b /\ live pnext q N (bi_stream b) (odef af) /\ okA (bi_stream b).
    Proof.
      intros [b t H1 H2 H3 H4 H5] (b' & Hb & Hd). rewrite Hb in H1. injection H1 as <-.
      exists b'. split; [easy|]. destruct H2 as [y r G1 G2 G3 G4 G4' G5 G6 G7|y G1 G2 G3 G3' G4 G5]; [congruence|].
      easy.
    Qed.
    (** leaving it early: [m] bytes of the part are lost *)
    Lemma part_leave r0 t0 af k s rest : part r0 t0 af k s rest -> length rest < length t0 ->
      exists b, ls_prod s = Some b /\ okA (bi_stream b) /\
        (bi_done b = true /\ live pnext q N (bi_stream b) (odef af) \/
         exists m, length t0 - length rest <= m <= length t0 /\ live pnext q N (bi_stream b) (skipn m r0)).
    Proof.
      intros [b t H1 H2 H3 H4 H5] Hlt. exists b. split; [easy|].
      destruct H2 as [y r G1 G2 G3 G4 G4' G5 G6 G7|y G1 G2 G3 G3' G4 G5].
      - assert (Hy : y <> []).
        { intros ->. cbn in G7. subst t0 rest. rewrite app_length in Hlt. lia. }
        split; [now apply G4'|]. right. exists (length y). subst t0 rest r0. rewrite !app_length, skipn_app_exact.
        split; [lia|easy].
      - split; [easy|]. now left.
    Qed.
  End Fuel.
End Part.
