(** * Proofs about header framing and header-line parsing *)
From Verif Require Import Py Spec PyFacts PyDict StreamModel StreamSpec StreamFacts StreamCalm HeadModel.

(** ** The request stream *)
Definition seg (i : item) : str := match i with SData d => d | SFail _ => [] end.

Lemma it_yields s : src_error s = None -> yields it_next s (map seg s) None [].
Proof.
  induction s as [|[d|e] s IH]; cbn; intros H; [|now eapply y_chunk; [reflexivity|apply IH]|easy].
  now apply y_stop.
Qed.
Lemma it_yields_inv s cs q : yields it_next s cs None q -> cs = map seg s /\ src_error s = None /\ q = [].
Proof.
  revert cs q; induction s as [|[d|e] s IH]; intros cs q H;
    inversion H as [p0 q0 G1 G2|p0 q0 e0 G1|p0 c0 p1 cs0 e0 q0 G1 G2]; subst; cbn in G1; try discriminate.
  - injection G1 as <-. easy.
  - injection G1 as <- <-. apply IH in G2 as (-> & H1 & ->). easy.
Qed.
Lemma src_bytes_segs s : src_error s = None -> src_bytes s = concat (map seg s).
Proof. induction s as [|[d|e] s IH]; cbn; intros H; [easy|now rewrite IH|easy]. Qed.
Lemma src_total_segs s : src_error s = None -> src_total s = length (concat (map seg s)).
Proof. induction s as [|[d|e] s IH]; cbn; intros H; [easy| |easy]. rewrite app_length. now rewrite IH. Qed.

(** [l0at k s r]: the request stream [s] delivers exactly [r] *)
Definition l0at (k : nat) (s : l0) (r : str) : Prop := sat it_next (src_items s) k s r.

Lemma l0at_of_sat N k s r : sat it_next N k s r -> l0at k s r.
Proof.
  intros [p cs q H1 H2 H3 H4 H5 H6]. unfold l0at. econstructor; try eassumption.
  unfold src_items. rewrite H1. destruct (it_yields_inv _ _ _ H2) as (-> & _ & _). now rewrite map_length.
Qed.
Lemma l0at_mono k k' s r : k <= k' -> l0at k s r -> l0at k' s r.
Proof. intros H. apply sat_mono; [easy|lia]. Qed.
Lemma l0at_init k s : src_error s = None -> l0at k (l0_init s) (src_bytes s).
Proof.
  intros H. unfold l0at. econstructor; [reflexivity|now apply it_yields| | | |].
  - cbn. now rewrite map_length.
  - easy.
  - cbn. now apply src_bytes_segs.
  - apply calmk_init.
Qed.
Lemma l0at_total k s r : l0at k s r -> l0_total s = length r.
Proof.
  intros [p cs q H1 H2 H3 H4 H5 H6]. unfold l0_total. rewrite H1.
  destruct (it_yields_inv _ _ _ H2) as (-> & He & _). rewrite src_total_segs by easy.
  subst r. now rewrite app_length.
Qed.
Lemma l0_read_spec k s r n : l0at k s r -> 1 <= k <= 40 ->
  exists s', l0_read (Some (Z.of_nat n)) s = (Ok (firstn n r), s') /\ l0at k s' (skipn n r).
Proof.
  intros H Hk. destruct (sat_read it_next (src_items s) k s r (4 + src_items s) n H Hk ltac:(lia))
    as (s' & H1 & H2). exists s'. split; [exact H1|]. now apply l0at_of_sat in H2.
Qed.
Lemma l0_read_all_spec k s r : l0at k s r ->
  exists s', l0_read None s = (Ok r, s') /\ l0at k s' [].
Proof.
  intros H. destruct (sat_read_all it_next (src_items s) k s r (4 + src_items s) H ltac:(lia))
    as (s' & H1 & H2). exists s'. split; [exact H1|]. now apply l0at_of_sat in H2.
Qed.
Lemma l0_unget_spec k s r b : l0at k s r -> k + 1 <= 40 ->
  exists s', ls_unget b s = (Ok tt, s') /\ l0at (k + 2) s' (b ++ r).
Proof.
  intros H Hk. destruct (sat_unget it_next (src_items s) k b s r H Hk) as (s' & H1 & H2 & _).
  exists s'. split; [exact H1|]. now apply l0at_of_sat in H2.
Qed.

(** ** Framing *)
Lemma frame_loop_some k m : 1 <= m -> 1 <= k <= 40 -> forall fuel hdr st s r, l0at k s r ->
  find crlfcrlf hdr = None -> length r < fuel ->
  match find crlfcrlf (hdr ++ r) with
  | Some i => exists s' x r', frame_loop fuel (Some (Z.of_nat m)) hdr st s
                = (Ok (firstn i (hdr ++ r), x), true, s') /\
              l0at k s' r' /\ x ++ r' = skipn (i + 4) (hdr ++ r)
  | None => exists s', frame_loop fuel (Some (Z.of_nat m)) hdr st s
                = (Err (InvalidHttpRequest NoTerminator), true, s') /\ l0at k s' []
  end.
Proof.
  intros Hm Hk. induction fuel as [|fuel IH]; intros hdr st s r HA Hn Hf; [lia|].
  cbn [frame_loop]. destruct (l0_read_spec k s r m HA Hk) as (s1 & HR & HA1). rewrite HR.
  destruct (firstn m r) as [|x c] eqn:Ec.
  - assert (r = []).
    { destruct r; [easy|]. destruct m; [lia|]. cbn in Ec. discriminate. }
    subst r. rewrite app_nil_r, Hn. rewrite skipn_nil in HA1. now exists s1.
  - set (chunk := x :: c) in *.
    destruct (find crlfcrlf (hdr ++ chunk)) as [i|] eqn:E.
    + pose proof (find_app_l _ _ (skipn m r) _ E) as E'.
      rewrite <- app_assoc in E'. rewrite <- Ec in E' at 1. rewrite firstn_skipn in E'. rewrite E'.
      exists s1, (skipn (i + 4) (hdr ++ chunk)), (skipn m r).
      pose proof (find_Some _ _ _ E) as [_ El]. cbn [length crlfcrlf] in El.
      assert (Hd : hdr ++ r = (hdr ++ chunk) ++ skipn m r).
      { rewrite <- app_assoc. rewrite <- Ec. now rewrite firstn_skipn. }
      repeat split.
      * rewrite Hd. rewrite (firstn_app i (hdr ++ chunk)). replace (i - length (hdr ++ chunk)) with 0 by lia.
        cbn [firstn]. now rewrite app_nil_r.
      * easy.
      * rewrite Hd. rewrite (skipn_app (i + 4) (hdr ++ chunk)). replace (i + 4 - length (hdr ++ chunk)) with 0 by lia. easy.
    + assert (Hlen : length (skipn m r) < fuel).
      { rewrite skipn_length. assert (0 < length r); [|lia].
        destruct r; [rewrite firstn_nil in Ec; discriminate|cbn; lia]. }
      specialize (IH (hdr ++ chunk) true s1 (skipn m r) HA1 E Hlen).
      assert (Hd : (hdr ++ chunk) ++ skipn m r = hdr ++ r).
      { rewrite <- app_assoc. rewrite <- Ec. now rewrite firstn_skipn. }
      rewrite Hd in IH. exact IH.
Qed.

Lemma frame_loop_none k : 1 <= k <= 40 -> forall fuel s r, l0at k s r -> 2 <= fuel ->
  match find crlfcrlf r with
  | Some i => exists s', frame_loop fuel None [] false s = (Ok (firstn i r, skipn (i + 4) r), true, s') /\ l0at k s' []
  | None => exists s', frame_loop fuel None [] false s
                = (Err (InvalidHttpRequest NoTerminator), true, s') /\ l0at k s' []
  end.
Proof.
  intros Hk fuel s r HA Hf. destruct fuel as [|[|fuel]]; try lia. cbn [frame_loop].
  destruct (l0_read_all_spec k s r HA) as (s1 & HR & HA1). rewrite HR.
  destruct r as [|x r]; [now exists s1|]. cbn [app].
  destruct (find crlfcrlf (x :: r)) as [i|]; [now exists s1|].
  destruct (l0_read_all_spec k s1 [] HA1) as (s2 & HR2 & HA2). rewrite HR2. now exists s2.
Qed.

(** sizes MAX_HEADER_SIZE may take: positive, or None *)
Definition max_ok (max : option Z) : Prop := match max with Some m => (1 <= m)%Z | None => True end.

Theorem frame_found max k s r h b : max_ok max -> 1 <= k <= 38 -> l0at k s r ->
  first_occ crlfcrlf r h b ->
  exists s', frame max s = (Ok (h ++ crlf), true, s') /\ l0at (k + 2) s' b.
Proof.
  intros Hm Hk HA HF.
  assert (Hfind : find crlfcrlf r = Some (length h)) by (apply find_first_occ; now exists h, b).
  destruct HF as [Hr _].
  assert (Hh : firstn (length h) r = h) by (rewrite Hr; apply firstn_app_exact).
  assert (Hb : skipn (length h + 4) r = b).
  { rewrite Hr, app_assoc. replace (length h + 4) with (length (h ++ crlfcrlf)) by (rewrite app_length; easy).
    apply skipn_app_exact. }
  unfold frame. rewrite (l0at_total k s r HA). destruct max as [m|].
  - cbn in Hm. pose proof (frame_loop_some k (Z.to_nat m) ltac:(lia) ltac:(lia) (2 + length r) [] false s r HA eq_refl ltac:(lia)) as H.
    cbn [app] in H. rewrite Hfind in H. rewrite Z2Nat.id in H by lia.
    destruct H as (s1 & x & r' & H1 & H2 & H3). rewrite H1, Hh.
    destruct (l0_unget_spec k s1 r' x H2 ltac:(lia)) as (s2 & U1 & U2). rewrite U1.
    exists s2. rewrite H3, Hb in U2. easy.
  - pose proof (frame_loop_none k ltac:(lia) (2 + length r) s r HA ltac:(lia)) as H. rewrite Hfind in H.
    destruct H as (s1 & H1 & H2). rewrite H1, Hh, Hb.
    destruct (l0_unget_spec k s1 [] b H2 ltac:(lia)) as (s2 & U1 & U2). rewrite U1.
    exists s2. rewrite app_nil_r in U2. easy.
Qed.

Theorem frame_missing max k s r : max_ok max -> 1 <= k <= 40 -> l0at k s r ->
  ~ occurs crlfcrlf r ->
  exists s', frame max s = (Err (InvalidHttpRequest NoTerminator), true, s') /\ l0at k s' [].
Proof.
  intros Hm Hk HA HF. apply find_None in HF.
  unfold frame. rewrite (l0at_total k s r HA). destruct max as [m|].
  - cbn in Hm. pose proof (frame_loop_some k (Z.to_nat m) ltac:(lia) ltac:(lia) (2 + length r) [] false s r HA eq_refl ltac:(lia)) as H.
    cbn [app] in H. rewrite HF in H. rewrite Z2Nat.id in H by lia.
    destruct H as (s1 & H1 & H2). rewrite H1. now exists s1.
  - pose proof (frame_loop_none k ltac:(lia) (2 + length r) s r HA ltac:(lia)) as H. rewrite HF in H.
    destruct H as (s1 & H1 & H2). rewrite H1. now exists s1.
Qed.

(** ** Header lines *)
Definition plain_line (l : str) : Prop := l <> [] /\ ~ occurs crlf l.

(** the outcome of one line, stated on its own: name before the first colon,
    value after it with surrounding whitespace removed *)
Definition line_outcome (l : str) : res (str * str) :=
  match findc colon l with
  | None => Err (InvalidHttpRequest BadHeaderLine)
  | Some i => if ascii_only (firstn i l)
              then if ascii_only (strip (skipn (S i) l)) then Ok (firstn i l, strip (skipn (S i) l))
                   else Err UnicodeDecodeError
              else Err UnicodeDecodeError
  end.
Fixpoint lines_outcome (ls : list str) : res (list (str * str)) :=
  match ls with
  | [] => Ok []
  | l :: r => let* p := line_outcome l in let* t := lines_outcome r in Ok (p :: t)
  end.
Definition add_all (ps : list (str * str)) (d : headers) : headers :=
  fold_left (fun d p => add_header (fst p) (snd p) d) ps d.
Definition block (ls : list str) : str := concat (map (fun l => l ++ crlf) ls).

Lemma crlf_first u v : ~ occurs crlf u -> first_occ crlf (u ++ crlf ++ v) u v.
Proof.
  intros H. split; [easy|]. intros u' v' Heq.
  destruct (Nat.le_gt_cases (length u) (length u')) as [?|Hlt]; [easy|exfalso].
  symmetry in Heq. apply app_eq_split in Heq as (e & -> & He); [|lia].
  rewrite app_length in Hlt.
  destruct e as [|e1 e]; [cbn in Hlt; lia|].
  destruct e as [|e2 e].
  - cbn in He. discriminate He.
  - cbn in He. injection He as <- <- He. apply H. exists u', e. easy.
Qed.

Lemma find_from1_plain l v : plain_line l -> find_from crlf (l ++ crlf ++ v) 1 = Some (length l).
Proof.
  intros [Hne Hno]. unfold find_from.
  destruct l as [|x l]; [easy|].
  destruct (Nat.ltb_spec (length ((x :: l) ++ crlf ++ v)) 1) as [H|_]; [cbn in H; lia|].
  cbn [skipn app]. change (l ++ crlf ++ v) with (l ++ crlf ++ v).
  assert (Hf : find crlf (l ++ crlf ++ v) = Some (length l)).
  { apply find_first_occ. exists l, v. split; [|easy]. apply crlf_first.
    intros (a & b & ->). apply Hno. exists (x :: a), b. easy. }
  cbn in Hf |- *. rewrite Hf. easy.
Qed.

Lemma header_lines_spec : forall ls fuel d, Forall plain_line ls -> length (block ls) < fuel ->
  header_lines fuel (block ls) d =
    match lines_outcome ls with Ok ps => Ok (add_all ps d) | Err e => Err e end.
Proof.
  induction ls as [|l ls IH]; intros fuel d HF Hf.
  - destruct fuel as [|fuel]; [lia|]. cbn [header_lines block map concat lines_outcome].
    unfold find_from. cbn. easy.
  - inversion_clear HF as [|? ? Hl HF']. destruct fuel as [|fuel]; [lia|].
    cbn [header_lines]. unfold block. cbn [map concat]. rewrite <- app_assoc.
    rewrite find_from1_plain by easy. rewrite firstn_app_exact.
    replace (skipn (length l + 2) (l ++ crlf ++ concat (map (fun l0 => l0 ++ crlf) ls))) with (block ls).
    2:{ rewrite app_assoc. replace (length l + 2) with (length (l ++ crlf)) by (rewrite app_length; easy).
        now rewrite skipn_app_exact. }
    cbn [lines_outcome]. unfold line_outcome.
    destruct (findc colon l) as [i|]; [|easy]. unfold ascii_encode.
    replace (i + 1) with (S i) by lia.
    destruct (ascii_only (firstn i l)); [|easy]. cbn [bind].
    destruct (ascii_only (strip (skipn (S i) l))); [|easy]. cbn [bind].
    rewrite IH; [|easy|].
    + now destruct (lines_outcome ls).
    + unfold block in Hf. cbn [map concat] in Hf. rewrite !app_length in Hf. change (length crlf) with 2 in Hf. unfold block. lia.
Qed.

Theorem parse_request_headers_spec l0 ls : plain_line l0 -> Forall plain_line ls ->
  parse_request_headers (block (l0 :: ls)) =
    match lines_outcome ls with
    | Err e => Err e
    | Ok [] => Err (InvalidHttpRequest NoHeaders)
    | Ok ps => Ok (l0, add_all ps [])
    end.
Proof.
  intros H0 HF. unfold parse_request_headers, block. cbn [map concat]. rewrite <- app_assoc.
  rewrite find_from1_plain by easy. rewrite firstn_app_exact.
  replace (skipn (length l0 + 2) (l0 ++ crlf ++ concat (map (fun l => l ++ crlf) ls))) with (block ls).
  2:{ rewrite app_assoc. replace (length l0 + 2) with (length (l0 ++ crlf)) by (rewrite app_length; easy).
      now rewrite skipn_app_exact. }
  rewrite header_lines_spec by (easy || lia).
  destruct (lines_outcome ls) as [ps|e]; [|easy]. cbn [bind].
  destruct ps as [|p ps]; [easy|].
  destruct (add_all (p :: ps) []) as [|kv d] eqn:E; [|easy].
  exfalso. revert E. unfold add_all. cbn [fold_left].
  assert (G : forall ps (d : headers), d <> [] -> fold_left (fun d p => add_header (fst p) (snd p) d) ps d <> []).
  { clear. induction ps as [|p ps IH]; intros d Hd; cbn; [easy|]. apply IH.
    unfold add_header. destruct d as [|[k v] d]; [easy|].
    destruct (dget (fst p) ((k, v) :: d)); cbn; destruct (seqb (fst p) k); easy. }
  apply G. cbn. easy.
Qed.

(** values of a name, in order *)
Definition values_of (n : str) (ps : list (str * str)) : list str :=
  map snd (filter (fun p => seqb n (fst p)) ps).

Lemma add_all_get n ps : forall d,
  dget n (add_all ps d) =
    match values_of n ps with
    | [] => dget n d
    | vs => Some (match dget n d with Some l => l | None => [] end ++ vs)
    end.
Proof.
  unfold add_all, values_of. induction ps as [|[k v] ps IH]; intros d; [easy|].
  cbn [fold_left filter fst snd]. rewrite IH. clear IH.
  assert (Hg : dget n (add_header k v d) =
               if seqb n k then Some (match dget n d with Some l => l | None => [] end ++ [v]) else dget n d).
  { unfold add_header. destruct (seqb n k) eqn:E.
    - apply seqb_eq in E. subst n. destruct (dget k d); now rewrite dget_dset_same.
    - apply seqb_neq in E. destruct (dget k d); now rewrite dget_dset_other. }
  rewrite Hg. destruct (seqb n k).
  - cbn [map snd]. destruct (map snd (filter _ ps)) as [|y l]; [easy|].
    f_equal. now rewrite <- app_assoc.
  - easy.
Qed.

Lemma add_header_wf n v d : wf d -> wf (add_header n v d).
Proof. intros H. unfold add_header. destruct (dget n d); now apply wf_dset. Qed.
Lemma add_all_wf ps : forall d, wf d -> wf (add_all ps d).
Proof. induction ps as [|p ps IH]; intros d H; [easy|]. cbn. apply IH. now apply add_header_wf. Qed.

(** ** From the framed block to its lines *)
Lemma occurs_app_l p a b : occurs p a -> occurs p (a ++ b).
Proof. intros (u & v & ->). exists u, (v ++ b). now rewrite <- !app_assoc. Qed.
Lemma occurs_app_r p a b : occurs p b -> occurs p (a ++ b).
Proof. intros (u & v & ->). exists (a ++ u), v. now rewrite <- !app_assoc. Qed.

(** the lines of a framed header block that does not start with an empty line *)
Theorem framed_lines h b r : first_occ crlfcrlf r h b -> h <> [] -> ~ (exists t, h = crlf ++ t) ->
  exists l0 ls, h ++ crlf = block (l0 :: ls) /\ plain_line l0 /\ Forall plain_line ls /\
    l0 :: ls = split crlf h.
Proof.
  intros [Hr Hmin] Hne Hstart.
  assert (Hno : forall u v, h ++ crlf <> u ++ crlfcrlf ++ v).
  { intros u v E. assert (length u <= length h - 2).
    { apply (f_equal (@length N)) in E. rewrite !app_length in E. cbn in E. lia. }
    assert (Hlt : length u < length h \/ h = []) by (destruct h; cbn in *; [tauto|lia]).
    destruct Hlt as [Hlt|]; [|easy].
    assert (r = u ++ crlfcrlf ++ v ++ crlf ++ b).
    { rewrite Hr. change crlfcrlf with (crlf ++ crlf) at 1. rewrite <- app_assoc.
      rewrite (app_assoc h). rewrite E. now rewrite <- !app_assoc. }
    specialize (Hmin _ _ H0). lia. }
  assert (Hsp : forall n h, length h <= n -> h <> [] -> ~ (exists t, h = crlf ++ t) ->
      (forall u v, h ++ crlf <> u ++ crlfcrlf ++ v) ->
      h ++ crlf = block (split crlf h) /\ Forall plain_line (split crlf h)).
  { clear. induction n as [|n IH]; intros h Hn Hne Hst Hno; [destruct h; [easy|cbn in Hn; lia]|].
    rewrite split_unfold by easy. destruct (find crlf h) as [i|] eqn:E.
    - pose proof (find_Some _ _ _ E) as [Hs Hl]. cbn [length crlf] in Hl.
      assert (Hp : plain_line (firstn i h)).
      { split.
        - intros H0. apply Hst. rewrite H0 in Hs. cbn [app] in Hs. eexists. exact Hs.
        - intros (u & v & Hu). rewrite Hu in Hs. rewrite <- !app_assoc in Hs.
          pose proof (find_Some_min _ _ _ E u _ Hs) as Hm.
          assert (length (firstn i h) = i) by (rewrite firstn_length; lia).
          rewrite Hu in H. rewrite !app_length in H. cbn in H. lia. }
      set (t := skipn (i + length crlf) h) in *.
      assert (Ht : t <> [] /\ ~ (exists t', t = crlf ++ t') /\ (forall u v, t ++ crlf <> u ++ crlfcrlf ++ v)).
      { repeat split.
        - intros H0. rewrite H0, app_nil_r in Hs. apply (Hno (firstn i h) []). rewrite Hs at 1.
          now rewrite <- app_assoc.
        - intros (t' & H0). rewrite H0 in Hs. apply (Hno (firstn i h) (t' ++ crlf)). rewrite Hs at 1.
          now rewrite <- !app_assoc.
        - intros u v H0. apply (Hno (firstn i h ++ crlf ++ u) v). rewrite Hs at 1.
          rewrite <- !app_assoc. now rewrite H0. }
      destruct Ht as (Ht1 & Ht2 & Ht3).
      destruct (IH t) as [IH1 IH2]; try easy.
      { unfold t. rewrite skipn_length. cbn. lia. }
      split; [|constructor; easy].
      unfold block in *. cbn [map concat]. rewrite <- IH1. rewrite <- app_assoc.
      rewrite Hs at 1. now rewrite <- !app_assoc.
    - apply find_None in E. split; [|repeat constructor; easy].
      unfold block. cbn. now rewrite app_nil_r. }
  destruct (Hsp (length h) h (le_n _) Hne Hstart Hno) as [H1 H2].
  assert (Hnn : split crlf h <> []).
  { rewrite split_unfold by easy. now destruct (find crlf h). }
  destruct (split crlf h) as [|l0 ls] eqn:E; [easy|].
  exists l0, ls. inversion_clear H2. split; [exact H1|]. split; [exact H|]. split; [exact H0|reflexivity].
Qed.
