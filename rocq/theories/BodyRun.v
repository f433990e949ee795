(** * body(), read(): equations and what they return *)
From Coq Require Import ZifyBool ZifyN ZifyNat.
From Verif Require Import Py Spec HeadSpec PyFacts PyDict StreamModel StreamSpec StreamFacts StreamCalm CodecModel PercentModel
  QueryModel HeadModel HeadFacts HeaderModel UploadModel MultipartModel RequestModel RequestSpec HeaderRun.

Local Arguments querydict : simpl never.
(** what a new request object is *)
Definition fresh (q : qdict) (s : src) : request :=
  mkR (l0_init s) false false (Some q) (Some (PQuery q)) (Some []) None false None (Some (mkMeta None None)) none_attrs.
Lemma init_eq reg st s :
  request_init reg st s = match querydict reg (Some (s_query st)) None true with Ok q => Ok (fresh q s) | Err e => Err e end.
Proof.
  unfold request_init, re_init, new_query, mbind, msett, mlift, mupd. cbn [fst snd].
  destruct (querydict reg (Some (s_query st)) None true); reflexivity.
Qed.

Lemma set_stream_twice a b r : set_stream a (set_stream b r) = set_stream a r.
Proof. reflexivity. Qed.
Lemma m_read_spec k st r b n : l0at k (r_stream r) b -> 1 <= k <= 40 -> (0 <= n)%Z ->
  exists s', m_read (Some n) (st, r) = (Ok (firstn (Z.to_nat n) b), (st, set_stream s' r)) /\ l0at k s' (skipn (Z.to_nat n) b).
Proof.
  intros HA Hk Hn. destruct (l0_read_spec k _ b (Z.to_nat n) HA Hk) as (s' & HR & HA').
  rewrite Z2Nat.id in HR by lia.
  exists s'. split; [|exact HA']. unfold m_read, mstream. cbn [fst snd]. now rewrite HR.
Qed.

Lemma block_pos : (0 <= BLOCK)%Z. Proof. discriminate. Qed.
Lemma first_block (b : str) : firstn (Z.to_nat BLOCK) b = [] -> b = [].
Proof.
  assert (H : forall z, (0 < z)%Z -> exists n, Z.to_nat z = S n).
  { intros z Hz. exists (pred (Z.to_nat z)). lia. }
  destruct (H BLOCK eq_refl) as [n ->]. now destruct b.
Qed.
Lemma m_read_block k st r b : l0at k (r_stream r) b -> 1 <= k <= 40 ->
  exists c b' s', b = c ++ b' /\ (c = [] -> b = []) /\ length b = length c + length b' /\
    m_read (Some BLOCK) (st, r) = (Ok c, (st, set_stream s' r)) /\ l0at k s' b'.
Proof.
  intros HA Hk. destruct (m_read_spec k st r b BLOCK HA Hk block_pos) as (s1 & HR & HA1).
  exists (firstn (Z.to_nat BLOCK) b), (skipn (Z.to_nat BLOCK) b), s1.
  split; [symmetry; apply firstn_skipn|]. split; [apply first_block|].
  split; [|split; assumption]. rewrite <- app_length, firstn_skipn. reflexivity.
Qed.
Lemma body_loop_ok k m : 1 <= k <= 40 -> forall fuel st r rest acc chunk size,
  l0at k (r_stream r) rest -> length rest + 2 <= fuel ->
  (chunk = [] -> rest = []) -> (size + zlen rest <= m)%Z ->
  exists s', body_loop fuel (Some m) size chunk acc (st, r) = (Ok (acc ++ chunk ++ rest, (size + zlen rest)%Z), (st, set_stream s' r)) /\
    l0at k s' [].
Proof.
  intros Hk. induction fuel as [|fuel IH]; intros st r rest acc chunk size HA Hf Hc Hm; [lia|].
  cbn [body_loop within_max]. assert (Hs : Z.leb size m = true) by (unfold zlen in *; lia). rewrite Hs. cbn [andb].
  destruct chunk as [|c0 chunk].
  - cbn [nonempty]. rewrite (Hc eq_refl) in *. exists (r_stream r). unfold mret. split; [|exact HA].
    cbn [app]. unfold zlen. cbn [length]. rewrite Z.add_0_r. rewrite !app_nil_r. now destruct r.
  - cbn [nonempty]. destruct (m_read_block k st r rest HA Hk) as (c & rest' & s1 & Ec & Hne & Hlen & HR & HA1).
    unfold mbind. rewrite HR. clear HR.
    destruct rest as [|x rest0] eqn:Er.
    + assert (c = []) by (destruct c; [easy|cbn in Hlen; lia]).
      assert (rest' = []) by (destruct rest'; [easy|cbn in Hlen; lia]).
      assert (HA0 : l0at k (r_stream (set_stream s1 r)) []) by (cbn; congruence).
      rewrite H. destruct fuel as [|fuel']; [cbn in Hf; lia|].
      cbn [body_loop within_max]. unfold zlen at 1 2. cbn [length]. rewrite Z.add_0_r, Hs. cbn [andb nonempty].
      exists s1. rewrite app_nil_r. split; [reflexivity|]. congruence.
    + assert (Hc' : c <> []) by (intros E; specialize (Hne E); discriminate).
      destruct (IH st (set_stream s1 r) rest' (acc ++ c0 :: chunk) c (size + zlen c)%Z) as (s2 & HB & HA2).
      * exact HA1.
      * destruct c; [easy|]. cbn in Hlen, Hf |- *. lia.
      * easy.
      * unfold zlen in *. lia.
      * exists s2. rewrite HB. split; [|exact HA2]. rewrite set_stream_twice. f_equal. f_equal. f_equal.
        -- rewrite <- app_assoc. f_equal. now rewrite <- Ec.
        -- unfold zlen in *. lia.
Qed.
(** more than the limit: the loop stops with a size above it *)
Lemma body_loop_big k m : 1 <= k <= 40 -> forall fuel st r rest acc chunk size,
  l0at k (r_stream r) rest -> length rest + 2 <= fuel ->
  (chunk = [] -> rest = []) -> (m < size + zlen rest)%Z ->
  exists x n s', body_loop fuel (Some m) size chunk acc (st, r) = (Ok (x, n), (st, set_stream s' r)) /\ (m < n)%Z.
Proof.
  intros Hk. induction fuel as [|fuel IH]; intros st r rest acc chunk size HA Hf Hc Hm; [lia|].
  cbn [body_loop within_max]. destruct (Z.leb_spec size m) as [Hs|Hs]; cbn [andb].
  2:{ exists acc, size, (r_stream r). split; [unfold mret; now destruct r|lia]. }
  destruct chunk as [|c0 chunk].
  - specialize (Hc eq_refl). subst rest. unfold zlen in Hm. cbn in Hm. lia.
  - cbn [nonempty]. destruct (m_read_block k st r rest HA Hk) as (c & rest' & s1 & Ec & Hne & Hlen & HR & HA1).
    unfold mbind. rewrite HR. clear HR.
    destruct rest as [|x rest0] eqn:Er; [unfold zlen in Hm; cbn in Hm; lia|].
    assert (Hc' : c <> []).
    { intros E. specialize (Hne E). discriminate. }
    destruct (IH st (set_stream s1 r) rest' (acc ++ c0 :: chunk) c (size + zlen c)%Z) as (y & n & s2 & HB & Hn).
    + exact HA1.
    + destruct c; [easy|]. cbn in Hlen, Hf |- *. lia.
    + easy.
    + unfold zlen in *. lia.
    + exists y, n, s2. rewrite HB. split; [|exact Hn]. now rewrite set_stream_twice.
Qed.

(** the whole method *)
Lemma read_body_ok k st r b m : l0at k (r_stream r) b -> 1 <= k <= 40 -> s_dmem st = Some m -> (zlen b <= m)%Z ->
  exists s', read_body (st, r) = (Ok (PB b), (st, set_body (Some (PB b)) (set_stream s' r))) /\ l0at k s' [].
Proof.
  intros HA Hk Hm Hb. unfold read_body, mbind, msett, mreq. cbn [fst snd].
  destruct (m_read_block k st r b HA Hk) as (c & b' & s1 & Ec & Hne0 & Hlen & HR & HA1). rewrite HR.
  assert (Hne : c = [] -> b' = []).
  { intros E. rewrite (Hne0 E) in Ec. now destruct (app_eq_nil _ _ (eq_sym Ec)). }
  rewrite (l0at_total k _ _ HA), Hm.
  destruct (body_loop_ok k m Hk (2 + length b) st (set_stream s1 r) b' [] c (zlen c) HA1) as (s2 & HB & HA2);
    [lia|exact Hne|unfold zlen in *; lia|].
  rewrite HB. cbn [fst snd within_max app]. assert (HL : Z.leb (zlen c + zlen b') m = true) by (unfold zlen in *; lia).
  rewrite HL. exists s2. unfold mupd, mret. cbn [fst snd]. rewrite <- Ec. now split.
Qed.
Lemma read_body_big k st r b : l0at k (r_stream r) b -> 1 <= k <= 40 ->
  match s_dmem st with Some m => (m < zlen b)%Z | None => True end ->
  exists s', read_body (st, r) = (Err RequestDataTooBig, (st, set_stream s' r)).
Proof.
  intros HA Hk Hm. unfold read_body, mbind, msett, mreq. cbn [fst snd].
  destruct (m_read_block k st r b HA Hk) as (c & b' & s1 & Ec & Hne0 & Hlen & HR & HA1). rewrite HR.
  assert (Hne : c = [] -> b' = []).
  { intros E. rewrite (Hne0 E) in Ec. now destruct (app_eq_nil _ _ (eq_sym Ec)). }
  rewrite (l0at_total k _ _ HA). destruct (s_dmem st) as [m|].
  - destruct (body_loop_big k m Hk (2 + length b) st (set_stream s1 r) b' [] c (zlen c) HA1) as (x & n & s2 & HB & Hn);
      [lia|exact Hne|unfold zlen in *; lia|].
    rewrite HB. cbn [fst snd within_max]. assert (HL : Z.leb n m = false) by lia. rewrite HL.
    exists s2. reflexivity.
  - cbn [body_loop Nat.add within_max andb]. unfold mret. cbn [fst snd within_max]. now exists s1.
Qed.

(** [body] with a parsed header *)
Lemma body_hp reg w : r_hp (snd w) = true -> body reg w = body1 w.
Proof. intros H. unfold body, mbind, mreq. now rewrite H. Qed.
Definition raw_ok (r : request) : Prop :=
  r_bp r = false \/ (r_bp r = true /\ exists c, a_ctype (r_attrs r) = Some c /\ is_form c = false).
Lemma body1_raw r st : raw_ok r ->
  body1 (st, r) = match r_body r with
                  | Some b => (Ok b, (st, r))
                  | None => if r_hp r then read_body (st, r) else (Err AttributeError, (st, r))
                  end.
Proof.
  intros H. unfold body1, mbind, mreq. cbn [snd].
  assert (E : r_bp r && match a_ctype (r_attrs r) with Some c => is_form c | None => true end = false).
  { destruct H as [->|(-> & c & -> & ->)]; reflexivity. }
  rewrite E. destruct (r_body r); [reflexivity|]. destruct (r_hp r); reflexivity.
Qed.
Lemma body_cached reg r st b : r_hp r = true -> raw_ok r -> r_body r = Some b -> body reg (st, r) = (Ok b, (st, r)).
Proof. intros H1 H2 H3. rewrite body_hp by exact H1. rewrite body1_raw by exact H2. now rewrite H3. Qed.
Lemma body_reads reg r st : r_hp r = true -> raw_ok r -> r_body r = None -> body reg (st, r) = read_body (st, r).
Proof. intros H1 H2 H3. rewrite body_hp by exact H1. rewrite body1_raw by exact H2. now rewrite H3, H1. Qed.
