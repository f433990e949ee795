(** * C136: uploads are handed over in pieces *)
From Coq Require Import ZifyBool ZifyN ZifyNat.
From Verif Require Import Py PyFacts PyDict Spec StreamModel StreamSpec StreamFacts CodecModel QueryModel
  Base64Model HeaderModel BoundaryModel UploadModel MultipartModel FormSpec CustomModel CustomProto CustomUpto CustomCap
  PropsData PropsPart PropsMultipart PropsCustom HeadModel RequestModel.

(** in a record of calls no receive_data_chunk has more than [k] bytes *)
Definition pieces_upto (k : nat) (l : list event) : Prop := forall d n, In (EData d n) l -> length d <= k.
(** [read(n)] returns at most [n] bytes *)
Definition short_reads {R} (rd : nat -> R -> res str * R) (n : nat) : Prop := forall r d r1, rd n r = (Ok d, r1) -> length d <= n.
(** what receive_data_chunk returns is not longer than what it was given *)
Definition no_growth {S F X} (O : ops S F X) : Prop := forall d n h d' h', o_data O d n h = (Good (Some d'), h') -> length d' <= length d.

Definition within_b (k : nat) (l : list event) : bool := forallb (fun e => match e with EData d _ => Nat.leb (length d) k | _ => true end) l.
Lemma within_spec k l : within_b k l = true -> pieces_upto k l.
Proof. unfold within_b, pieces_upto. rewrite forallb_forall. intros H d n Hi. specialize (H _ Hi). cbn in H. lia. Qed.
Lemma within_snoc k l e : within_b k (l ++ [e]) = (within_b k l && within_b k [e])%bool.
Proof. apply forallb_app. Qed.

Theorem C136_pieces :
  forall S F X (O : ops S F X) truthy R (rd : nat -> R -> res str * R) exh reg name2cp st D fuel len csize hs (r : R),
  short_reads rd csize -> no_growth O ->
  Forall (fun h => pieces_upto (csize + length D + 1029) (snd h))
    (snd (fst (c_parse rd exh reg name2cp st D fuel (logged O) truthy len csize (map (fun s => (s, [])) hs) r))).
Proof.
  intros S F X O truthy R rd exh reg name2cp st D fuel len csize hs r Hr Hg. set (k := csize + length D + 1029).
  assert (HG : forall d n h d' h', o_data (logged O) d n h = (Good (Some d'), h') -> length d' <= length d).
  { intros d n h d' h'. cbn [o_data logged]. destruct (o_data O d n (fst h)) as [x s] eqn:E. intros [= -> _]. exact (Hg _ _ _ _ _ E). }
  assert (HK : csize + rollback D + 1023 <= k) by (unfold rollback, k; lia). clearbody k.
  rewrite <- (cap_parse rd csize Hr reg name2cp st D fuel (logged O) truthy exh k CSkip HK HG len (map (fun s => (s, [])) hs) r).
  assert (HP : keeping (capped (logged O) k CSkip) (fun h => within_b k (snd h))).
  { split; cbn [capped logged o_raw o_new o_data o_done o_close o_end].
    - intros l x. now destruct (o_raw O l (fst x)).
    - intros i l x. destruct (o_new O i l (fst x)) as [y s]. cbn [snd]. rewrite within_snoc. apply andb_true_r.
    - intros d n x. destruct (Nat.ltb_spec k (length d)) as [L|L]; [reflexivity|]. destruct (o_data O d n (fst x)) as [y s]. cbn [snd]. rewrite within_snoc.
      cbn [within_b forallb]. replace (Nat.leb (length d) k) with true by lia. apply andb_true_r.
    - intros n x. destruct (o_done O n (fst x)) as [y s]. cbn [snd]. rewrite within_snoc. apply andb_true_r.
    - intros x. destruct (o_close O (fst x)) as [y s]. cbn [snd]. rewrite within_snoc. apply andb_true_r.
    - intros x. destruct (o_end O (fst x)) as [y s]. cbn [snd]. rewrite within_snoc. apply andb_true_r. }
  pose proof (keep_parse (capped (logged O) k CSkip) truthy (fun h => within_b k (snd h)) HP rd exh reg name2cp st D fuel len csize (map (fun s => (s, [])) hs) r) as H.
  rewrite map_map in H. cbn [snd within_b forallb] in H. revert H.
  generalize (snd (fst (c_parse rd exh reg name2cp st D fuel (capped (logged O) k CSkip) truthy len csize (map (fun s => (s, [])) hs) r))) as l. clear.
  induction hs as [|h hs IH]; intros [|x l] H; try discriminate H; constructor; injection H as H1 H2; [now apply within_spec|now apply IH].
Qed.
Print Assumptions C136_pieces.

Lemma src_short n : short_reads src_read n.
Proof.
  intros r. induction r as [|[d|e] r IH]; intros x r1; cbn [src_read]; [intros [= <- _]; cbn; lia| |easy].
  destruct d as [|y d]; [apply IH|]. intros [= <- _]. rewrite firstn_length. lia.
Qed.
Lemma read_loop_short {P} (pn : P -> nxt * P) : forall n m out s d s1, (0 <= m)%Z -> ls_read_loop pn n m out s = (Ok d, s1) -> (Z.of_nat (length d) <= Z.of_nat (length out) + m)%Z.
Proof.
  induction n as [|n IH]; intros m out s d s1 Hm; cbn [ls_read_loop]; [easy|]. destruct (Z.eqb_spec m 0); [intros [= <- <-]; lia|].
  destruct (Z.ltb_spec m 0); [easy|]. destruct (ls_next pn s) as [[c| |e] s2]; [|intros [= <- <-]; lia|easy].
  destruct (ls_unget (skipn (Z.to_nat m) c) s2) as [[u|e] s3]; [|easy]. unfold zlen. intros HR. apply IH in HR; [rewrite app_length in HR; lia|]. rewrite firstn_length. lia.
Qed.
Lemma l0_short n : short_reads l0_rd n.
Proof. intros s d s1. unfold l0_rd, l0_read, ls_read. intros H. apply read_loop_short in H; cbn [length] in H; lia. Qed.
(** for the input object of MultiPartParser, whatever it delivers, and for the stream of a request *)
Theorem C136_uploads :
  forall S F X (O : ops S F X) truthy reg name2cp st D fuel len csize hs, no_growth O ->
  let small l := Forall (fun h => pieces_upto (csize + length D + 1029) (snd h)) l in
  (forall s, small (snd (fst (c_parse src_read it_exhaust reg name2cp st D fuel (logged O) truthy len csize (map (fun s => (s, [])) hs) s)))) /\
  (forall s, small (snd (fst (c_parse l0_rd l0_exh reg name2cp st D fuel (logged O) truthy len csize (map (fun s => (s, [])) hs) s)))).
Proof. intros S F X O truthy reg name2cp st D fuel len csize hs HO. split; intros s; apply C136_pieces; auto using src_short, l0_short. Qed.
Print Assumptions C136_uploads.

(** a file of [n] bytes, read with a chunk size of [csize] *)
Definition ex_sized (b64 : bool) (csize n : nat) :=
  let body := render_form !"--X" [mkPart !"f" (Some !"y") None b64 (repeat 65%N n) []] in
  snd (fst (c_parse src_read it_exhaust ex_reg no_cp ex_ms !"--X" (2 * length body + 4) (logged idle_ops) file_truthy 1%Z csize
    (map (fun s => (s, [])) [false; false]) [SData body])).
Definition sizes (l : list event) : list nat := flat_map (fun e => match e with EData d _ => [length d] | _ => [] end) l.
Lemma idle_growth : no_growth idle_ops.
Proof. intros d n h d' h'. cbn. intros [= <- _]. lia. Qed.
Example C136_case : no_growth idle_ops /\ map (fun h => sizes (snd h)) (ex_sized false 64 1100) = [[1016; 64; 20]; [1016; 64; 20]] /\
  map (fun h => sizes (snd h)) (ex_sized true 64 248) = [[186]; [186]].
Proof. split; [exact idle_growth|]. vm_compute. easy. Qed.
(** chunk_size itself is not the bound: what came with the header of the part is handed over at once *)
Theorem C136_chunk_size_exceeded :
  exists csize n h hs, ex_sized false csize n = h :: hs /\ ~ pieces_upto csize (snd h).
Proof.
  exists 64, 300. eexists _, _. split; [vm_compute; reflexivity|]. intros H. cbn [snd] in H.
  match type of H with pieces_upto _ (_ :: EData ?d ?n :: _) => specialize (H d n ltac:(right; left; reflexivity)) end.
  apply Nat.leb_le in H. vm_compute in H. discriminate H.
Qed.
Print Assumptions C136_chunk_size_exceeded.
