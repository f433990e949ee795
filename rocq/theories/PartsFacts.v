(** * Facts about reading all parts of a body (claim C21) *)
From Coq Require Import Lia.
From Verif Require Import Py PyFacts Spec StreamModel StreamFacts BoundaryModel BoundarySpec BoundaryFacts
  PartFacts MultipartSpec MultipartFacts MultipartDet PartsSpec.

Lemma splits_pieces D r ts : splits D r ts <-> pieces D r ts.
Proof.
  split.
  - induction 1 as [|r t af ts Hr Hb HS IH]; [constructor|].
    destruct Hb as [u v Hf|Hn]; cbn [odef] in *; [now apply (pc_cut D r u v)|].
    inversion HS; subst; [now apply pc_last|easy].
  - induction 1 as [|r Hr Hn|r u v ts Hr Hf HP IH]; [constructor|..].
    + apply (sp_cons D r r None []); [easy|now constructor|constructor].
    + apply (sp_cons D r _ (Some v) ts); [easy|now constructor|easy].
Qed.

Section Client.
  Context {P : Type} (pnext : P -> nxt * P) (q : P) (N : nat) (D : str) (fuel : nat).
  Context (Hfuel : N + 3 <= fuel) (HD : Dok D).

  Lemma part_calls_spec r0 t0 af : length r0 + 4 <= fuel -> forall cs s rest, part pnext q N D r0 t0 af 1 s rest ->
    exists os s', part_calls pnext fuel (cs ++ [RdAll]) s = (os, s') /\
      delivers (cs ++ [RdAll]) rest os /\ part pnext q N D r0 t0 af 1 s' [] /\ finished s'.
  Proof.
    intros HF. induction cs as [|c cs IH]; intros s rest HP; cbn [app part_calls].
    - cbn [part_call]. destruct (part_read_all pnext q N D fuel Hfuel HD r0 t0 af 1 s rest fuel HP ltac:(lia)) as (s' & E & HP' & HFin).
      rewrite E. eexists _, _. split; [reflexivity|]. split; [constructor; constructor|easy].
    - destruct c as [n| |]; cbn [part_call].
      + destruct (part_read pnext q N D fuel Hfuel HD r0 t0 af 1 s rest fuel n HP ltac:(lia) ltac:(lia)) as (s' & E & HP' & _).
        rewrite E. destruct (IH s' _ HP') as (os & s2 & E2 & H2 & H3 & H4). rewrite E2.
        eexists _, _. split; [reflexivity|]. split; [now constructor|easy].
      + destruct (part_read_all pnext q N D fuel Hfuel HD r0 t0 af 1 s rest fuel HP ltac:(lia)) as (s' & E & HP' & HFin).
        rewrite E. destruct (IH s' _ HP') as (os & s2 & E2 & H2 & H3 & H4). rewrite E2.
        eexists _, _. split; [reflexivity|]. split; [now constructor|easy].
      + pose proof (part_next pnext q N D fuel Hfuel HD r0 t0 af 1 s rest HP) as HN.
        destruct (ls_next (bi_next pnext fuel) s) as [[b| |e] s']; [| |easy].
        * destruct HN as (rest' & -> & HP'). destruct (IH s' _ HP') as (os & s2 & E2 & H2 & H3 & H4). rewrite E2.
          eexists _, _. split; [reflexivity|]. split; [now constructor|easy].
        * destruct HN as (-> & HP' & _). destruct (IH s' _ HP') as (os & s2 & E2 & H2 & H3 & H4). rewrite E2.
          eexists _, _. split; [reflexivity|]. split; [now constructor|easy].
  Qed.

  Lemma read_parts_spec : forall r ts, splits D r ts -> forall n pats s, live pnext q N s r -> okA s ->
    length r + 4 <= fuel -> length r + 1 <= n ->
    length (read_parts pnext fuel D n pats s) = length ts /\
    forall i t os, nth_error ts i = Some t -> nth_error (read_parts pnext fuel D n pats s) i = Some os ->
      delivers (pats i ++ [RdAll]) t os.
  Proof.
    induction 1 as [|r t af ts Hr Hb HS IH]; intros n pats s HL HA HF Hn.
    - destruct n as [|n]; [lia|]. cbn [read_parts].
      pose proof (bi_init_spec pnext q N s [] D fuel HL HA Hfuel) as HB.
      destruct (bi_init pnext fuel s D) as [[b|e] s1]; [now destruct HB|]. split; [easy|]. now intros [|i].
    - destruct n as [|n]; [lia|]. cbn [read_parts].
      pose proof (bi_init_spec pnext q N s r D fuel HL HA Hfuel) as HB.
      destruct (bi_init pnext fuel s D) as [[b|e] s1]; [|now destruct HB].
      destruct HB as (_ & -> & HL1 & HC1).
      pose proof (part_init pnext q N D r af t s1 HC1 HL1 Hb) as HP.
      destruct (part_calls_spec r t af HF (pats 0) _ _ HP) as (os & s' & E & HDel & HP' & HFin). rewrite E.
      destruct (part_done pnext q N D r t af 1 s' [] HP' HFin) as (b & Hbp & HL2 & HA2). rewrite Hbp.
      assert (Hsh : length (odef af) < length r).
      { destruct Hb as [u v (Hx & _)|Hx]; cbn; [|destruct r; [easy|cbn; lia]].
        subst r. rewrite !app_length. destruct HD. lia. }
      destruct (IH n (fun i => pats (S i)) (bi_stream b) HL2 HA2 ltac:(lia) ltac:(lia)) as [I1 I2].
      split; [cbn; now rewrite I1|]. intros [|i] t' os' H1 H2; cbn in H1, H2; [|now apply (I2 i)].
      injection H1 as <-. now injection H2 as <-.
  Qed.
End Client.

Theorem src_parts D s csize pats ts fuel : Dok D -> 0 < csize -> src_error s = None ->
  pieces D (src_bytes s) ts -> enough s <= fuel ->
  length (read_parts (ci_next src_read) fuel D fuel pats (ls_init (mkCI s csize) None)) = length ts /\
  forall i t os, nth_error ts i = Some t ->
    nth_error (read_parts (ci_next src_read) fuel D fuel pats (ls_init (mkCI s csize) None)) i = Some os ->
    delivers (pats i ++ [RdAll]) t os.
Proof.
  intros HD Hc He HS Hf. destruct (chunkiter_yields s csize Hc ltac:(now rewrite He)) as (cs & q & HY & HC & HF).
  rewrite He in HY.
  assert (HN : Forall (fun c => c <> []) cs).
  { eapply Forall_impl; [|exact HF]. intros c Hx ->. cbn in Hx. lia. }
  assert (HLc : length cs <= length (concat cs)).
  { clear -HF. induction HF as [|c cs Hx _ IH]; [easy|]. cbn. rewrite app_length. lia. }
  unfold enough in Hf. rewrite <- HC in *.
  apply splits_pieces in HS.
  apply (read_parts_spec (ci_next src_read) q (length cs) D fuel ltac:(lia) HD (concat cs) ts HS fuel pats _
           (live_init _ _ _ _ HY HN) (okA_init _)); lia.
Qed.
