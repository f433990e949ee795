(** * Theorems C119: the header and what arrives after it *)
From Coq Require Import ZifyBool ZifyN ZifyNat.
From Verif Require Import Py Spec HeadSpec PyFacts PyDict StreamModel StreamSpec StreamFacts StreamCalm CodecModel PercentModel
  QueryModel HeadModel HeadFacts HeaderModel UploadModel MultipartModel RequestModel RequestSpec HeaderRun BodyRun TapeFacts
  PropsRequest PropsBody.

Local Arguments querydict : simpl never.

(** ** The same stream with more behind it *)
Definition ext (t : src) (s : l0) : l0 :=
  mkLS (option_map (fun p => p ++ t) (ls_prod s)) (ls_left s) (ls_pos s) (ls_hist s) (ls_remaining s).
Lemma ext_init t s : ext t (l0_init s) = l0_init (s ++ t).
Proof. reflexivity. Qed.
Lemma ext_unget t b s : ls_unget b (ext t s) = (fst (ls_unget b s), ext t (snd (ls_unget b s))).
Proof. unfold ls_unget. destruct b as [|c b]; [reflexivity|]. cbn [ls_hist ext]. now destruct (Nat.ltb _ _). Qed.
Lemma ext_next t s c s1 : ls_next it_next s = (Chunk c, s1) -> ls_next it_next (ext t s) = (Chunk c, ext t s1).
Proof.
  unfold ls_next. cbn [ls_left ext]. destruct (ls_left s) as [|x l]; [|now intros [= <- <-]].
  destruct (ls_prod s) as [[|[d|e] p]|] eqn:E; cbn; rewrite ?E; cbn; try easy. now intros [= <- <-].
Qed.
Lemma ext_loop t : forall f f' n out s d s1, f <= f' -> ls_read_loop it_next f n out s = (Ok (out ++ d), s1) -> zlen d = n ->
  ls_read_loop it_next f' n out (ext t s) = (Ok (out ++ d), ext t s1).
Proof.
  induction f as [|f IH]; intros f' n out s d s1 Hf H Hd; [discriminate H|]. destruct f' as [|f']; [lia|].
  cbn [ls_read_loop] in *. destruct (Z.eqb_spec n 0) as [Hn|Hn]; [injection H as Hx <-; now rewrite <- Hx|]. destruct (Z.ltb n 0); [discriminate H|].
  destruct (ls_next it_next s) as [[c| |e] s2] eqn:EN; [| |discriminate H].
  - rewrite (ext_next t _ _ _ EN). rewrite ext_unget.
    destruct (ls_unget (skipn (Z.to_nat n) c) s2) as [[u|e] s3]; [|discriminate H]. cbn [fst snd].
    assert (HP : exists d', d = firstn (Z.to_nat n) c ++ d').
    { pose proof (loop_pending f (n - zlen (firstn (Z.to_nat n) c))%Z (out ++ firstn (Z.to_nat n) c) s3) as HL. rewrite H in HL.
      destruct HL as (d' & HL & _). rewrite <- app_assoc in HL. apply app_inv_head in HL. now exists d'. }
    destruct HP as (d' & ->). rewrite app_assoc in *. apply (IH f'); [lia|exact H|].
    unfold zlen in *. rewrite app_length in Hd. lia.
  - exfalso. assert (HE : length out = length (out ++ d)) by congruence. rewrite app_length in HE. unfold zlen in Hd. lia.
Qed.
Lemma ext_items t s : src_items s <= src_items (ext t s).
Proof. unfold src_items. cbn [ls_prod ext]. destruct (ls_prod s); cbn; [rewrite app_length; lia|lia]. Qed.
Lemma ext_read t s n d s1 : l0_read (Some (Z.of_nat n)) s = (Ok d, s1) -> length d = n ->
  l0_read (Some (Z.of_nat n)) (ext t s) = (Ok d, ext t s1).
Proof.
  unfold l0_read, ls_read. intros H Hd. pose proof (ext_items t s).
  apply (ext_loop t (4 + src_items s) (4 + src_items (ext t s)) (Z.of_nat n) [] s d s1); [lia|exact H|unfold zlen; lia].
Qed.
Lemma ext_pending t s : ls_prod s <> None -> pending (ext t s) = pending s ++ flat_map item_cells t.
Proof.
  intros H. unfold pending. cbn [ls_left ls_prod ext]. destruct (ls_prod s) as [p|]; [|easy]. cbn.
  now rewrite flat_map_app, app_assoc.
Qed.
Lemma l0at_pending k s r : l0at k s r -> ls_prod s <> None /\ pending s = map Byte r.
Proof.
  intros [p cs q H1 H2 H3 H4 H5 H6]. split; [congruence|]. unfold pending. rewrite H1, H5, map_app. f_equal.
  destruct (it_yields_inv _ _ _ H2) as (-> & He & _). clear - He. induction p as [|[d|e] p IH]; cbn in *; [easy| |easy].
  now rewrite map_app, IH.
Qed.
Lemma loop_fails_at e t : forall fuel n out s d, pending s = map Byte d ++ Fail e :: t -> (Z.of_nat (length d) < n)%Z ->
  src_items s + 2 <= fuel + (if nonempty (ls_left s) then 0 else 1) ->
  exists s', ls_read_loop it_next fuel n out s = (Err e, s') /\ pending s' = t.
Proof.
  intros fuel n out s d H1 H2 H3. revert fuel n out s d H1 H2 H3.
  induction fuel as [|fuel IH]; intros n out s d HP Hn Hf; [destruct (nonempty (ls_left s)); lia|]. cbn [ls_read_loop].
  assert (E0 : Z.eqb n 0 = false) by lia. assert (E1 : Z.ltb n 0 = false) by lia. rewrite E0, E1.
  unfold ls_next. unfold pending in HP. destruct (ls_left s) as [|c l] eqn:El.
  - cbn [map app] in HP. unfold src_items in Hf. destruct (ls_prod s) as [p|]; [|destruct d; discriminate HP].
    destruct p as [|[x|x] p]; cbn [flat_map] in HP; [destruct d; discriminate HP| |].
    + destruct (byte_split e t x d _ HP) as (d' & -> & HP2). cbn [it_next]. rewrite app_length in Hn.
      assert (L : length x <= Z.to_nat n) by lia. rewrite skipn_all2, firstn_all2 by exact L. cbn [ls_unget].
      apply (IH _ _ _ d'); [exact HP2|unfold zlen; lia|]. cbn in *. lia.
    + destruct d; [|discriminate HP]. cbn in HP. injection HP as -> HP. cbn [it_next]. eexists. split; [reflexivity|]. exact HP.
  - destruct (byte_split e t (c :: l) d _ HP) as (d' & -> & HP2). rewrite app_length in Hn.
    assert (L : length (c :: l) <= Z.to_nat n) by lia. rewrite skipn_all2, firstn_all2 by exact L. cbn [ls_unget].
    apply (IH _ _ _ d'); [exact HP2|unfold zlen; lia|]. unfold src_items in *. cbn in *. lia.
Qed.
Lemma read_fails_at e t n s d : pending s = map Byte d ++ Fail e :: t -> length d < n ->
  exists s', l0_read (Some (Z.of_nat n)) s = (Err e, s') /\ pending s' = t.
Proof.
  intros H1 H2. apply (loop_fails_at e t (4 + src_items s) (Z.of_nat n) [] s d H1); [lia|]. destruct (nonempty _); lia.
Qed.
Lemma join_fails_at e t : forall fuel out s d, pending s = map Byte d ++ Fail e :: t ->
  src_items s + 2 <= fuel + (if nonempty (ls_left s) then 0 else 1) ->
  exists s', ls_join it_next fuel out s = (Err e, s') /\ pending s' = t.
Proof.
  induction fuel as [|fuel IH]; intros out s d HP Hf; [destruct (nonempty (ls_left s)); lia|]. cbn [ls_join].
  unfold ls_next. unfold pending in HP. destruct (ls_left s) as [|c l] eqn:El.
  - cbn [map app] in HP. unfold src_items in Hf. destruct (ls_prod s) as [p|]; [|destruct d; discriminate HP].
    destruct p as [|[x|x] p]; cbn [flat_map] in HP; [destruct d; discriminate HP| |].
    + destruct (byte_split e t x d _ HP) as (d' & -> & HP2). cbn [it_next]. apply (IH _ _ d'); [exact HP2|]. cbn in *. lia.
    + destruct d; [|discriminate HP]. cbn in HP. injection HP as -> HP. cbn [it_next]. eexists. split; [reflexivity|]. exact HP.
  - destruct (byte_split e t (c :: l) d _ HP) as (d' & -> & HP2). apply (IH _ _ d'); [exact HP2|]. unfold src_items in *. cbn in *. lia.
Qed.

(** ** Framing *)
(** [blocks m n len]: a whole number of blocks of [m] bytes covers [n] bytes and is covered by [len] *)
Definition blocks (m n len : nat) : Prop := exists k, n <= k * m <= len.

Lemma prefix_find (a b : str) i : find crlfcrlf a = Some i -> find crlfcrlf (a ++ b) = Some i /\ i + 4 <= length a.
Proof. intros H. split; [now apply find_app_l|]. pose proof (find_Some _ _ _ H) as [_ Hl]. exact Hl. Qed.

Lemma frame_ext t m k w i : 1 <= m -> find crlfcrlf w = Some i -> i + 4 <= k * m <= length w ->
  forall fuel fuel' hdr j b s r, l0at 1 s r -> hdr ++ r = w -> length hdr = j * m -> find crlfcrlf hdr = None ->
  length r < fuel <= fuel' ->
  exists x s1, frame_loop fuel (Some (Z.of_nat m)) hdr b s = (Ok x, true, s1) /\
    frame_loop fuel' (Some (Z.of_nat m)) hdr b (ext t s) = (Ok x, true, ext t s1).
Proof.
  intros Hm Hw Hk. induction fuel as [|fuel IH]; intros fuel' hdr j b s r HA Hr Hj Hn Hf; [lia|].
  destruct fuel' as [|fuel']; [lia|]. cbn [frame_loop].
  assert (Hlen : length hdr < i + 4).
  { destruct (Nat.le_gt_cases (i + 4) (length hdr)) as [HL|]; [exfalso|easy].
    pose proof (find_Some _ _ _ Hw) as [Hs _].
    assert (occurs crlfcrlf hdr); [|now apply find_None in Hn].
    exists (firstn i w), (skipn (i + 4) hdr). rewrite <- (firstn_skipn (i + 4) hdr) at 1. rewrite app_assoc. f_equal.
    replace (firstn (i + 4) hdr) with (firstn (i + 4) w).
    - rewrite Hs at 1. change (length crlfcrlf) with 4 in *. rewrite app_assoc, firstn_app.
      assert (HL4 : length (firstn i w ++ crlfcrlf) = i + 4).
      { rewrite app_length, firstn_length. change (length crlfcrlf) with 4. rewrite <- Hr, app_length. lia. }
      rewrite HL4, Nat.sub_diag. cbn [firstn]. rewrite app_nil_r. apply firstn_all2. lia.
    - rewrite <- Hr, firstn_app. replace (i + 4 - length hdr) with 0 by lia. cbn [firstn]. now rewrite app_nil_r. }
  assert (Hjk : S j <= k) by nia. assert (Hmr : m <= length r).
  { assert (length w = length hdr + length r) by (now rewrite <- Hr, app_length). nia. }
  destruct (l0_read_spec 1 s r m HA ltac:(lia)) as (s1 & HR & HA1). rewrite HR.
  rewrite (ext_read t s m _ _ HR) by (rewrite firstn_length; lia).
  destruct (firstn m r) as [|x c] eqn:Ec.
  { apply (f_equal (@length N)) in Ec. rewrite firstn_length in Ec. cbn in Ec. lia. }
  cbv zeta. destruct (find crlfcrlf (hdr ++ x :: c)) as [i'|] eqn:E; [now do 2 eexists|].
  destruct (IH fuel' (hdr ++ x :: c) (S j) true s1 (skipn m r) HA1) as (y & s2 & I1 & I2); [| |exact E| |].
  - rewrite <- Ec, <- app_assoc, firstn_skipn. exact Hr.
  - rewrite app_length, <- Ec, firstn_length. lia.
  - rewrite skipn_length. lia.
  - exists y, s2. split; [exact I1|exact I2].
Qed.

Lemma frame_short t e m w i : 1 <= m -> find crlfcrlf w = Some i -> ~ blocks m (i + 4) (length w) ->
  forall fuel hdr j b s r, l0at 1 s r -> hdr ++ r = w -> length hdr = j * m -> find crlfcrlf hdr = None ->
  length r < fuel -> exists s1,
    frame_loop fuel (Some (Z.of_nat m)) hdr b (ext (SFail e :: t) s) = (Err e, b || Nat.leb m (length r), s1) /\
    pending s1 = flat_map item_cells t.
Proof.
  intros Hm Hw Hk. induction fuel as [|fuel IH]; intros hdr j b s r HA Hr Hj Hn Hf; [lia|]. cbn [frame_loop].
  destruct (Nat.leb_spec m (length r)) as [Hmr|Hmr].
  - destruct (l0_read_spec 1 s r m HA ltac:(lia)) as (s1 & HR & HA1).
    rewrite (ext_read (SFail e :: t) s m _ _ HR) by (rewrite firstn_length; lia).
    destruct (firstn m r) as [|x c] eqn:Ec.
    { apply (f_equal (@length N)) in Ec. rewrite firstn_length in Ec. cbn in Ec. lia. }
    cbv zeta. assert (Hrest : (hdr ++ x :: c) ++ skipn m r = w) by (rewrite <- Ec, <- app_assoc, firstn_skipn; exact Hr).
    assert (Hl : length (hdr ++ x :: c) = S j * m) by (rewrite app_length, <- Ec, firstn_length; lia).
    destruct (find crlfcrlf (hdr ++ x :: c)) as [i'|] eqn:E.
    + exfalso. destruct (prefix_find _ (skipn m r) _ E) as [E1 E2]. rewrite Hrest, Hw in E1. injection E1 as ->.
      apply Hk. exists (S j). rewrite Hl in E2. split; [exact E2|]. rewrite <- Hl, <- Hrest, (app_length (hdr ++ x :: c)). lia.
    + destruct (IH (hdr ++ x :: c) (S j) true s1 (skipn m r) HA1 Hrest Hl E) as (s2 & I1 & I2).
      { rewrite skipn_length. lia. }
      rewrite I1. exists s2. now rewrite Bool.orb_true_r.
  - destruct (l0at_pending 1 s r HA) as [HP1 HP2].
    destruct (read_fails_at e (flat_map item_cells t) m (ext (SFail e :: t) s) r) as (s1 & HR & HT).
    { rewrite ext_pending by exact HP1. rewrite HP2. reflexivity. }
    { exact Hmr. }
    rewrite HR. exists s1. now rewrite Bool.orb_false_r.
Qed.

(** ** The request *)
Lemma populate_stream reg l hs st r s : populate reg l hs (st, set_stream s r) =
  let '(x, (st1, r1)) := populate reg l hs (st, r) in (x, (st1, set_stream s r1)).
Proof.
  rewrite !populate_eq. cbn [r_attrs set_stream r_meta]. destruct (pick_host l hs) as [[host hs']|e]; [|reflexivity].
  destruct (ctype_of reg hs') as [[c ch]|e]; [|reflexivity]. cbv zeta.
  destruct (r_meta r) as [mt|]; [|now destruct ch].
  destruct (query_of reg (charset_after ch st) (rl_query l)); now destruct ch.
Qed.
Lemma populate_keeps_stream reg l hs st r : r_stream (snd (snd (populate reg l hs (st, r)))) = r_stream r.
Proof.
  rewrite !populate_eq. destruct (pick_host l hs) as [[host hs']|e]; [|reflexivity].
  destruct (ctype_of reg hs') as [[c ch]|e]; [|reflexivity]. cbv zeta.
  destruct (r_meta r) as [mt|]; [|now destruct ch].
  destruct (query_of reg (charset_after ch st) (rl_query l)); now destruct ch.
Qed.

(** when whole blocks of MAX_HEADER_SIZE bytes that have arrived contain the header, what comes
    after them, be it data, a failure or nothing, makes no difference and is left in the stream *)
Theorem C119_header_from_what_arrived :
  forall reg st s t r r' m h b, request_init reg st s = Ok r -> request_init reg st (s ++ t) = Ok r' ->
    src_error s = None -> s_hdr st = Some (Z.of_nat m) -> 1 <= m ->
    first_occ crlfcrlf (src_bytes s) h b -> blocks m (length h + 4) (length (src_bytes s)) ->
    exists x st1 r1 s1, parse_request_header reg (st, r) = (x, (st1, r1)) /\
      parse_request_header reg (st, r') = (x, (st1, set_stream s1 r1)) /\
      pending (r_stream r1) = map Byte b /\ pending s1 = map Byte b ++ flat_map item_cells t.
Proof.
  intros reg st s t r r' m h b Hi Hi' Hs Hm Hm1 HF (k & Hk).
  assert (Hw : find crlfcrlf (src_bytes s) = Some (length h)) by (apply find_first_occ; now exists h, b).
  rewrite init_eq in Hi, Hi'. destruct (querydict reg (Some (s_query st)) None true) as [q|x]; [|easy].
  injection Hi as <-. injection Hi' as <-.
  pose proof (l0at_init 1 s Hs) as HA.
  destruct (frame_found (s_hdr st) 1 (l0_init s) (src_bytes s) h b) as (s1 & HFr & HA1); [rewrite Hm; cbn; lia|lia|exact HA|exact HF|].
  assert (HX : frame (s_hdr st) (l0_init (s ++ t)) = (Ok (h ++ crlf), true, ext t s1)).
  { rewrite <- ext_init. unfold frame in *. rewrite Hm in *.
    destruct (frame_ext t m k (src_bytes s) (length h) Hm1 Hw Hk (2 + l0_total (l0_init s)) (2 + l0_total (ext t (l0_init s)))
                [] 0 false (l0_init s) (src_bytes s) HA eq_refl eq_refl eq_refl) as (y & s2 & I1 & I2).
    { rewrite (l0at_total 1 _ _ HA). split; [lia|]. unfold l0_total. cbn [ls_prod ls_left l0_init ls_init ext option_map].
      assert (HT : length (src_bytes s) <= src_total (s ++ t)); [|lia].
      clear. induction s as [|[d|e] s IH]; cbn; rewrite ?app_length; lia. }
    rewrite I1 in HFr. rewrite I2. destruct y as [y1 y2]. rewrite ext_unget. destruct (ls_unget y2 s2) as [[u|e] s3]; [|discriminate HFr].
    cbn [fst snd]. now injection HFr as -> ->. }
  destruct (l0at_pending _ _ _ HA1) as [HP1 HP2].
  rewrite !header_eq by reflexivity. cbn [r_stream fresh r_bp]. rewrite HFr, HX. cbv zeta.
  change (set_flags true false (set_stream (ext t s1) (fresh q (s ++ t)))) with (set_stream (ext t s1) (set_flags true false (set_stream s1 (fresh q s)))).
  set (r0 := set_flags true false (set_stream s1 (fresh q s))).
  assert (HE : pending (ext t s1) = map Byte b ++ flat_map item_cells t) by (rewrite ext_pending by exact HP1; now rewrite HP2).
  destruct (parse_request_headers (h ++ crlf)) as [[line hs]|e].
  2:{ exists (Err e), st, r0, (ext t s1). now repeat split. }
  destruct (parse_request_line line) as [l|e].
  2:{ exists (Err e), st, r0, (ext t s1). now repeat split. }
  pose proof (populate_stream reg l hs st r0 (ext t s1)) as HS. pose proof (populate_keeps_stream reg l hs st r0) as HK.
  destruct (populate reg l hs (st, r0)) as [x [st1 r1]]. cbn [snd] in HK. exists x, st1, r1, (ext t s1). rewrite HS, HK. now repeat split.
Qed.
Print Assumptions C119_header_from_what_arrived.

(** in every other case a complete header is not enough: the parser asks for more, and when that
    fails everything that had arrived is lost, and from the first full block on the header counts
    as parsed *)
Theorem C119_complete_header_refuted :
  forall reg st s t e r' h b, request_init reg st (s ++ SFail e :: t) = Ok r' -> src_error s = None ->
    first_occ crlfcrlf (src_bytes s) h b -> max_ok (s_hdr st) ->
    match s_hdr st with Some m => ~ blocks (Z.to_nat m) (length h + 4) (length (src_bytes s)) | None => True end ->
    exists r1, parse_request_header reg (st, r') = (Err e, (st, r1)) /\
      pending (r_stream r1) = flat_map item_cells t /\ r_attrs r1 = none_attrs /\
      r_hp r1 = match s_hdr st with Some m => Z.leb m (Z.of_nat (length (src_bytes s))) | None => false end.
Proof.
  intros reg st s t e r' h b Hi Hs HF Hmo Hk.
  assert (Hw : find crlfcrlf (src_bytes s) = Some (length h)) by (apply find_first_occ; now exists h, b).
  rewrite init_eq in Hi. destruct (querydict reg (Some (s_query st)) None true) as [q|x]; [|easy]. injection Hi as <-.
  pose proof (l0at_init 1 s Hs) as HA. rewrite header_eq by reflexivity. cbn [r_stream fresh r_bp].
  assert (HX : exists s1, frame (s_hdr st) (l0_init (s ++ SFail e :: t)) =
            (Err e, match s_hdr st with Some m => Z.leb m (Z.of_nat (length (src_bytes s))) | None => false end, s1) /\
            pending s1 = flat_map item_cells t).
  { unfold frame. rewrite <- ext_init. destruct (s_hdr st) as [m|].
    - cbn in Hmo. destruct (frame_short t e (Z.to_nat m) (src_bytes s) (length h) ltac:(lia) Hw Hk
        (2 + l0_total (ext (SFail e :: t) (l0_init s))) [] 0 false (l0_init s) (src_bytes s) HA eq_refl eq_refl eq_refl) as (s1 & I1 & I2).
      { unfold l0_total. cbn [ls_prod ls_left l0_init ls_init ext option_map]. rewrite src_bytes_segs by exact Hs.
        assert (HT : forall a, length (concat (map seg s)) <= src_total (s ++ a)).
        { intros a. clear - Hs. induction s as [|[d|x] s IH]; cbn in *; [lia| |easy]. rewrite app_length. specialize (IH Hs). lia. }
        specialize (HT (SFail e :: t)). cbn [length]. lia. }
      rewrite Z2Nat.id in I1 by lia. rewrite I1. cbn [orb]. exists s1. split; [|exact I2].
      destruct (Nat.leb_spec (Z.to_nat m) (length (src_bytes s))), (Z.leb_spec m (Z.of_nat (length (src_bytes s)))); try lia; reflexivity.
    - cbn [Nat.add frame_loop]. unfold l0_read at 1, ls_read. cbn [ls_remaining ext l0_init ls_init].
      destruct (l0at_pending 1 _ _ HA) as [HP1 HP2].
      destruct (join_fails_at e (flat_map item_cells t) (4 + src_items (ext (SFail e :: t) (l0_init s))) [] (ext (SFail e :: t) (l0_init s)) (src_bytes s))
        as (s1 & HJ & HT).
      { rewrite ext_pending by exact HP1. rewrite HP2. reflexivity. }
      { cbn [ls_left ext l0_init ls_init nonempty]. lia. }
      rewrite HJ. exists s1. split; [reflexivity|exact HT]. }
  destruct HX as (s1 & -> & HT). cbv zeta. eexists. split; [reflexivity|]. split; [exact HT|]. split; [reflexivity|]. reflexivity.
Qed.
Print Assumptions C119_complete_header_refuted.

(** a live connection: the whole GET request has arrived, nothing more will before it is answered *)
Definition ex_live (m : Z) : sett := mkS (Some m) (Some 30%Z) (Some 5000%Z) (Some 4096%Z) !"ISO-8859-1" [KConv].
Definition ex_get : str := !"GET / HTTP/1.1" ++ crlf ++ !"Host: abcdef" ++ crlfcrlf.
Example C119_case :
  length ex_get = 32 /\ first_occ crlfcrlf ex_get (!"GET / HTTP/1.1" ++ crlf ++ !"Host: abcdef") [] /\
  blocks 16 32 (length ex_get) /\ ~ blocks 24 32 (length ex_get) /\
  (let '(x, (_, r)) := run hdr (ex_live 16) [SData ex_get; SFail IOError] in x = Ok tt /\ host_is r !"abcdef") /\
  (let '(x, w) := run hdr (ex_live 24) [SData ex_get; SFail IOError; SData !"more"] in
     x = Err IOError /\ r_hp (snd w) = true /\ fst (hdr w) = Ok tt /\ a_method (r_attrs (snd (snd (hdr w)))) = Some None) /\
  (let '(x, w) := run hdr (ex_live 1000) [SData ex_get; SFail IOError; SData ex_get] in
     x = Err IOError /\ r_hp (snd w) = false /\ fst (hdr w) = Ok tt /\ host_is (snd (snd (hdr w))) !"abcdef").
Proof.
  split; [reflexivity|]. split.
  { destruct (proj1 (find_first_occ crlfcrlf ex_get 28) ltac:(vm_compute; reflexivity)) as (u & v & HF & HL).
    assert (Hu : u = firstn 28 ex_get) by (rewrite (proj1 HF), <- HL; now rewrite firstn_app_exact).
    assert (Hv : v = skipn 32 ex_get).
    { rewrite (proj1 HF). replace 32 with (length (u ++ crlfcrlf)) by (rewrite app_length, HL; reflexivity).
      now rewrite app_assoc, skipn_app_exact. }
    rewrite Hu, Hv in HF. exact HF. }
  split; [exists 2; cbn; lia|]. split; [intros (k & Hk); change (length ex_get) with 32 in Hk; lia|]. vm_compute. repeat split; reflexivity.
Qed.
