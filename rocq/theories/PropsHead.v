(** * Theorems C06-C12, C15, C76: framing and parsing of the request header *)
From Verif Require Import Py Spec HeadSpec PyFacts PyDict StreamModel StreamFacts StreamCalm
  HeadModel HeadFacts UrlFacts.

(** the bytes a stream still delivers *)
Definition unread (s : l0) (b : str) : Prop := fst (l0_read None s) = Ok b.

(** ** C06.  For every way the source cuts the bytes up and every MAX_HEADER_SIZE >= 1
    (or None), the header block is what stands before the first CRLFCRLF and the
    unread rest is exactly what stands after it. *)
Theorem C06_framing_exact :
  forall (s : src) (max : option Z) (h b : str),
    src_error s = None -> max_ok max -> first_occ crlfcrlf (src_bytes s) h b ->
    exists s', frame max (l0_init s) = (Ok (h ++ crlf), true, s') /\ unread s' b.
Proof.
  intros s max h b Hs Hm HF.
  destruct (frame_found max 1 (l0_init s) _ h b Hm ltac:(lia) (l0at_init 1 s Hs) HF) as (s' & H1 & H2).
  exists s'. split; [exact H1|]. unfold unread.
  destruct (l0_read_all_spec _ _ _ H2) as (s2 & -> & _). easy.
Qed.
Print Assumptions C06_framing_exact.

(** reads of any size after it, too, return the bytes after the terminator *)
Theorem C06_body_readable :
  forall (s : src) (max : option Z) (h b : str) (n : nat),
    src_error s = None -> max_ok max -> first_occ crlfcrlf (src_bytes s) h b ->
    exists s', frame max (l0_init s) = (Ok (h ++ crlf), true, s') /\
      exists s'', l0_read (Some (Z.of_nat n)) s' = (Ok (firstn n b), s'') /\ unread s'' (skipn n b).
Proof.
  intros s max h b n Hs Hm HF.
  destruct (frame_found max 1 (l0_init s) _ h b Hm ltac:(lia) (l0at_init 1 s Hs) HF) as (s' & H1 & H2).
  exists s'. split; [exact H1|].
  destruct (l0_read_spec _ _ _ n H2 ltac:(lia)) as (s2 & HR & HA). exists s2. split; [exact HR|].
  unfold unread. destruct (l0_read_all_spec _ _ _ HA) as (s3 & -> & _). easy.
Qed.
Print Assumptions C06_body_readable.

(** the outcome of framing is a function of the bytes alone, not of the chunking *)
Theorem C06_chunking_irrelevant :
  forall (s1 s2 : src) (max1 max2 : option Z),
    src_error s1 = None -> src_error s2 = None -> max_ok max1 -> max_ok max2 ->
    src_bytes s1 = src_bytes s2 ->
    fst (fst (frame max1 (l0_init s1))) = fst (fst (frame max2 (l0_init s2))).
Proof.
  intros s1 s2 m1 m2 H1 H2 M1 M2 HB.
  destruct (find crlfcrlf (src_bytes s1)) as [i|] eqn:E.
  - apply find_Some in E as HF. apply find_first_occ in E as (h & b & HFO & _).
    destruct (C06_framing_exact s1 m1 h b H1 M1 HFO) as (x & -> & _). rewrite HB in HFO.
    destruct (C06_framing_exact s2 m2 h b H2 M2 HFO) as (y & -> & _). easy.
  - apply find_None in E.
    destruct (frame_missing m1 1 (l0_init s1) _ M1 ltac:(lia) (l0at_init 1 s1 H1) E) as (x & -> & _).
    rewrite HB in E.
    destruct (frame_missing m2 1 (l0_init s2) _ M2 ltac:(lia) (l0at_init 1 s2 H2) E) as (y & -> & _). easy.
Qed.
Print Assumptions C06_chunking_irrelevant.

Definition sample_head : str := !"GET / HTTP/1.1" ++ crlf ++ !"Host: a".
Example C06_case :
  let s := [SData (firstn 17 sample_head); SData []; SData (skipn 17 sample_head ++ [CR]);
            SData [LF; CR]; SData (LF :: !"body" ++ crlfcrlf)] in
  match frame (Some 3%Z) (l0_init s) with
  | (Ok h, true, s') => h = sample_head ++ crlf /\ fst (l0_read None s') = Ok (!"body" ++ crlfcrlf)
  | _ => False
  end.
Proof. vm_compute. split; reflexivity. Qed.

(** ** C07.  Without CRLFCRLF: InvalidHttpRequest, nothing else; with one, framing succeeds. *)
Theorem C07_no_terminator_rejected :
  forall (s : src) (max : option Z), src_error s = None -> max_ok max ->
    (~ occurs crlfcrlf (src_bytes s) <->
     fst (fst (frame max (l0_init s))) = Err (InvalidHttpRequest NoTerminator)) /\
    (occurs crlfcrlf (src_bytes s) <-> exists h, fst (fst (frame max (l0_init s))) = Ok h).
Proof.
  intros s max Hs Hm. destruct (find crlfcrlf (src_bytes s)) as [i|] eqn:E.
  - apply find_first_occ in E as (h & b & HFO & _).
    destruct (C06_framing_exact s max h b Hs Hm HFO) as (x & -> & _). cbn. destruct HFO as [HFO _].
    split; split; [intros H; exfalso; apply H; now exists h, b|easy|intros _; eauto|intros _; now exists h, b].
  - apply find_None in E.
    destruct (frame_missing max 1 (l0_init s) _ Hm ltac:(lia) (l0at_init 1 s Hs) E) as (x & -> & _).
    cbn. split; split; try easy. intros [? H]. easy.
Qed.
Print Assumptions C07_no_terminator_rejected.
Example C07_case : fst (fst (frame (Some 16%Z) (l0_init [SData (sample_head ++ crlf); SData [LF]])))
  = Err (InvalidHttpRequest NoTerminator).
Proof. vm_compute. reflexivity. Qed.

(** ** C08 is false: for every value of MAX_HEADER_SIZE >= 1 and every length there is an
    accepted header at least that long.  What the setting does instead is stated next. *)
Lemma no_cr_first_occ h b : ~ In CR h -> first_occ crlfcrlf (h ++ crlfcrlf ++ b) h b.
Proof.
  intros Hn. split; [easy|]. intros u v Heq.
  destruct (Nat.le_gt_cases (length h) (length u)) as [?|Hlt]; [easy|exfalso].
  symmetry in Heq. apply app_eq_split in Heq as (e & -> & He); [|lia].
  destruct e as [|e1 e]; [rewrite app_nil_r in Hlt; lia|].
  cbn in He. injection He as He _. apply Hn. rewrite <- He. apply in_or_app. right. now left.
Qed.
Theorem C08_max_header_size_bounds_header_refuted :
  forall (m : Z) (n : nat), (1 <= m)%Z ->
    exists s h, src_error s = None /\ (m < zlen h)%Z /\ n <= length h /\
      fst (fst (frame (Some m) (l0_init s))) = Ok (h ++ crlf).
Proof.
  intros m n Hm. set (h := repeat 65%N (S (n + Z.to_nat m))).
  exists [SData (h ++ crlfcrlf)], h.
  assert (Hl : length h = S (n + Z.to_nat m)) by apply repeat_length.
  split; [easy|]. split; [unfold zlen; lia|]. split; [lia|].
  destruct (C06_framing_exact [SData (h ++ crlfcrlf)] (Some m) h []) as (s' & -> & _); [easy|exact Hm| |easy].
  cbn [src_bytes]. rewrite <- app_assoc. apply no_cr_first_occ.
  intros Hin. apply repeat_spec in Hin. discriminate.
Qed.
Print Assumptions C08_max_header_size_bounds_header_refuted.
(** The setting never matters: every value >= 1 gives the same result (see
    [C06_chunking_irrelevant]); the value 0 refuses every request. *)
Theorem C08_max_header_size_zero_partial :
  forall (s : src), fst (fst (frame (Some 0%Z) (l0_init s))) = Err (InvalidHttpRequest NoTerminator).
Proof.
  intros s. unfold frame. cbn [frame_loop Nat.add]. unfold l0_read.
  assert (HR : ls_read it_next (4 + src_items (l0_init s)) (Some 0%Z) (l0_init s) = (Ok [], l0_init s))
    by reflexivity.
  now rewrite HR.
Qed.
Print Assumptions C08_max_header_size_zero_partial.
Example C08_case : fst (fst (frame (Some 2%Z) (l0_init [SData (!"GET" ++ crlfcrlf)]))) = Ok (!"GET" ++ crlf).
Proof. vm_compute. reflexivity. Qed.

(** ** C09 / C10: the header lines *)
Definition getlist (n : str) (d : headers) : list str :=
  match dget n d with Some l => l | None => [] end.

Lemma good_line_outcome l p : good_line l p -> line_outcome l = Ok p.
Proof.
  intros [(raw & -> & Hn & Hv) [H1 H2]]. unfold line_outcome. destruct p as [n v]; cbn [fst snd] in *.
  change (findc colon (n ++ [58%N] ++ raw)) with (findc colon (n ++ colon :: raw)).
  rewrite findc_app by exact Hn. change (n ++ [58%N] ++ raw) with (n ++ colon :: raw).
  rewrite firstn_app_exact, skipn_S_app. rewrite <- Hv.
  assert (HA : forall s, ascii_text s -> ascii_only s = true).
  { intros s Hs. unfold ascii_only. apply forallb_forall. intros c Hc. apply N.ltb_lt. now apply Hs. }
  now rewrite !HA.
Qed.
Lemma ascii_text_iff s : ascii_text s <-> ascii_only s = true.
Proof.
  unfold ascii_text, ascii_only. rewrite forallb_forall. split; intros H c Hc; apply N.ltb_lt; now apply H.
Qed.
Lemma bad_line_outcome l e : bad_line l e -> line_outcome l = Err e.
Proof.
  intros [Hn|n v (raw & -> & Hn & Hv) HA]; unfold line_outcome.
  - apply findc_None in Hn. change 58%N with colon in Hn. now rewrite Hn.
  - change (n ++ [58%N] ++ raw) with (n ++ colon :: raw). rewrite findc_app by exact Hn.
    rewrite firstn_app_exact, skipn_S_app. rewrite <- Hv.
    rewrite !ascii_text_iff in HA. destruct (ascii_only n), (ascii_only v); try easy. now destruct HA.
Qed.
(** every line is one or the other *)
Theorem C10_every_line_decided : forall l, (exists p, good_line l p) \/ (exists e, bad_line l e).
Proof.
  intros l. destruct (findc colon l) as [i|] eqn:E.
  - apply findc_Some in E as (H1 & H2 & _).
    assert (HF : header_field l (firstn i l) (strip (skipn (S i) l))) by (exists (skipn (S i) l); easy).
    destruct (ascii_only (firstn i l) && ascii_only (strip (skipn (S i) l))) eqn:EA.
    + apply andb_true_iff in EA as [A1 A2]. left. exists (firstn i l, strip (skipn (S i) l)).
      split; [exact HF|]. cbn. now rewrite !ascii_text_iff.
    + right. exists UnicodeDecodeError. eapply bad_not_ascii; [exact HF|].
      rewrite !ascii_text_iff. intros [A1 A2]. rewrite A1, A2 in EA. easy.
  - apply findc_None in E. right. exists (InvalidHttpRequest BadHeaderLine). now constructor.
Qed.
Print Assumptions C10_every_line_decided.

Lemma lines_outcome_good ls ps : Forall2 good_line ls ps -> lines_outcome ls = Ok ps.
Proof.
  induction 1 as [|l p ls ps H HF IH]; cbn; [easy|]. now rewrite (good_line_outcome _ _ H), IH.
Qed.
Lemma lines_outcome_bad ls ps l rest e : Forall2 good_line ls ps -> bad_line l e ->
  lines_outcome (ls ++ l :: rest) = Err e.
Proof.
  intros HF HB. induction HF as [|x p ls ps H HF IH]; cbn.
  - now rewrite (bad_line_outcome _ _ HB).
  - now rewrite (good_line_outcome _ _ H), IH.
Qed.
Lemma values_named_of n ps : values_of n ps = values_named n ps.
Proof.
  unfold values_of. induction ps as [|[m v] ps IH]; cbn; [easy|].
  destruct (seqb n m); cbn; now rewrite IH.
Qed.

Theorem C09_headers_grouped_in_order :
  forall (first : str) (ls : list str) (ps : list (str * str)),
    is_line first -> Forall is_line ls -> Forall2 good_line ls ps -> ls <> [] ->
    exists d, parse_request_headers (lines_text (first :: ls)) = Ok (first, d) /\
      (forall n, getlist n d = values_named n ps) /\
      NoDup (dkeys d) /\ (forall n, In n (dkeys d) <-> In n (map fst ps)).
Proof.
  intros first ls ps H0 HF HG Hne.
  pose proof (parse_request_headers_spec first ls H0 HF) as HS. unfold block in HS. unfold lines_text.
  rewrite HS, (lines_outcome_good _ _ HG). clear HS.
  destruct ps as [|p ps]; [now inversion HG; subst|]. eexists. split; [reflexivity|].
  split; [|split].
  - intros n. unfold getlist. rewrite add_all_get, values_named_of. cbn [dget].
    now destruct (values_named n (p :: ps)).
  - apply (add_all_wf (p :: ps) []). apply wf_nil.
  - intros n. rewrite <- dmem_In. unfold dmem. rewrite add_all_get. cbn [dget].
    rewrite values_named_of. generalize (p :: ps). intros qs.
    induction qs as [|[m v] qs IH]; cbn; [easy|].
    destruct (seqb n m) eqn:E.
    + apply seqb_eq in E. subst. split; [now left|easy].
    + apply seqb_neq in E. rewrite IH. split; [now right|]. intros [He|He]; [now subst|easy].
Qed.
Print Assumptions C09_headers_grouped_in_order.

Example C09_case :
  match parse_request_headers (lines_text [!"GET / HTTP/1.1"; !"A: 1"; !"b:x:y "; !"A:  2"; !"a: 3"]) with
  | Ok (l, d) => l = !"GET / HTTP/1.1" /\ getlist !"A" d = [!"1"; !"2"] /\ getlist !"b" d = [!"x:y"]
                 /\ getlist !"a" d = [!"3"] /\ getlist !"B" d = []
  | Err _ => False
  end.
Proof. vm_compute. repeat split; reflexivity. Qed.

(** C10.  The verdict on a header block: the first offending line decides. *)
Theorem C10_first_bad_line_decides :
  forall (first : str) (ls : list str) (ps : list (str * str)) (l : str) (rest : list str) (e : exn),
    is_line first -> Forall is_line (ls ++ l :: rest) -> Forall2 good_line ls ps -> bad_line l e ->
    parse_request_headers (lines_text (first :: ls ++ l :: rest)) = Err e.
Proof.
  intros first ls ps l rest e H0 HF HG HB.
  pose proof (parse_request_headers_spec first (ls ++ l :: rest) H0 HF) as HS. unfold block in HS.
  unfold lines_text. now rewrite HS, (lines_outcome_bad _ _ _ rest _ HG HB).
Qed.
Print Assumptions C10_first_bad_line_decides.
Theorem C10_no_headers_rejected :
  forall first, is_line first ->
    parse_request_headers (lines_text [first]) = Err (InvalidHttpRequest NoHeaders).
Proof.
  intros first H0. pose proof (parse_request_headers_spec first [] H0 (Forall_nil _)) as HS. exact HS.
Qed.
Print Assumptions C10_no_headers_rejected.
(** every framed block is of one of three forms: empty, lines, or lines after a blank line *)
Theorem C10_framed_blocks :
  forall r h b, first_occ crlfcrlf r h b ->
    h = [] \/
    (exists first ls, h ++ crlf = lines_text (first :: ls) /\ is_line first /\ Forall is_line ls) \/
    (exists t, h = crlf ++ t).
Proof.
  intros r h b HF. destruct h as [|c h]; [now left|right].
  destruct (prefixb crlf (c :: h)) eqn:E.
  - right. apply prefixb_iff in E as [t Ht]. now exists t.
  - left. destruct (framed_lines (c :: h) b r HF) as (l0 & ls & H1 & H2 & H3 & _); [easy| |].
    + intros Ht. assert (prefixb crlf (c :: h) = true) by now apply prefixb_iff. congruence.
    + now exists l0, ls.
Qed.
Print Assumptions C10_framed_blocks.
Theorem C10_empty_block_rejected :
  parse_request_headers ([] ++ crlf) = Err (InvalidHttpRequest BadRequestLineEnd).
Proof. reflexivity. Qed.
Print Assumptions C10_empty_block_rejected.
Example C10_case1 :
  parse_request_headers (lines_text [!"GET / HTTP/1.1"; !"A: 1"; !"oops"; [200%N; 58%N]])
  = Err (InvalidHttpRequest BadHeaderLine).
Proof. vm_compute. reflexivity. Qed.
Example C10_case2 :
  parse_request_headers (lines_text [!"GET / HTTP/1.1"; !"A: 1"; [65%N; 58%N; 200%N]; !"oops"])
  = Err UnicodeDecodeError.
Proof. vm_compute. reflexivity. Qed.

(** ** C76.  A blank line before the request line is not skipped: it becomes part of the
    request line, for every block. *)
Lemma find_from1_crlf_plain l v : is_line l ->
  find_from crlf (crlf ++ l ++ crlf ++ v) 1 = Some (2 + length l).
Proof.
  intros [Hne Hno]. unfold find_from. cbn [app crlf length].
  destruct (Nat.ltb_spec (S (S (length (l ++ CR :: LF :: v)))) 1) as [|_]; [lia|].
  cbn [skipn].
  assert (Hf : find crlf (LF :: l ++ crlf ++ v) = Some (S (length l))).
  { apply find_first_occ. exists (LF :: l), v. split; [|easy]. apply (crlf_first (LF :: l) v).
    intros (a & b & Hab). destruct a as [|x a]; [discriminate Hab|]. injection Hab as _ Hab.
    apply Hno. now exists a, b. }
  change (10%N :: l ++ 13%N :: 10%N :: v) with (LF :: l ++ crlf ++ v). rewrite Hf. reflexivity.
Qed.
Theorem C76_leading_blank_line_joins_request_line :
  forall (first : str) (ls : list str), is_line first -> Forall is_line ls ->
    parse_request_headers (crlf ++ lines_text (first :: ls)) =
      match parse_request_headers (lines_text (first :: ls)) with
      | Ok (_, d) => Ok (crlf ++ first, d)
      | Err e => Err e
      end.
Proof.
  intros first ls H0 HF. unfold parse_request_headers. unfold lines_text. cbn [map concat].
  rewrite <- !app_assoc. rewrite find_from1_crlf_plain by exact H0. rewrite find_from1_plain by exact H0.
  assert (H1 : forall w, skipn (2 + length first + 2) (crlf ++ first ++ crlf ++ w) = w).
  { intros w. replace (crlf ++ first ++ crlf ++ w) with ((crlf ++ first ++ crlf) ++ w) by now rewrite <- !app_assoc.
    replace (2 + length first + 2) with (length (crlf ++ first ++ crlf)) by (rewrite !app_length; cbn; lia).
    apply skipn_app_exact. }
  assert (H2 : forall w, skipn (length first + 2) (first ++ crlf ++ w) = w).
  { intros w. rewrite app_assoc. replace (length first + 2) with (length (first ++ crlf)) by (rewrite app_length; cbn; lia).
    apply skipn_app_exact. }
  assert (H3 : forall w, firstn (2 + length first) (crlf ++ first ++ w) = crlf ++ first).
  { intros w. rewrite app_assoc. replace (2 + length first) with (length (crlf ++ first)) by (rewrite app_length; cbn; lia).
    apply firstn_app_exact. }
  rewrite H1, H2, H3. destruct (header_lines _ _ []) as [[|x d]|e]; reflexivity.
Qed.
Print Assumptions C76_leading_blank_line_joins_request_line.
Example C76_case :
  match parse_request_headers (crlf ++ lines_text [!"GET / HTTP/1.1"; !"Host: a"]) with
  | Ok (l, _) => match parse_request_line l with Ok r => rl_method r = crlf ++ !"GET" | Err _ => False end
  | Err _ => False
  end.
Proof. vm_compute. reflexivity. Qed.

(** ** C11 *)
Theorem C11_three_tokens_required :
  forall l, (exists r, parse_request_line l = Ok r) ->
    exists m u v, l = m ++ [32%N] ++ u ++ [32%N] ++ v /\ ~ In 32%N m /\ ~ In 32%N u /\ ~ In 32%N v.
Proof.
  intros l [r H]. apply request_line_tokens in H as (u & p & H1 & H2 & H3 & H4 & _).
  now exists (rl_method r), u, (rl_proto r).
Qed.
Print Assumptions C11_three_tokens_required.
Theorem C11_method_and_version_verbatim :
  forall m u v, ~ In 32%N m -> ~ In 32%N u -> ~ In 32%N v ->
    match parse_request_line (m ++ [32%N] ++ u ++ [32%N] ++ v) with
    | Ok r => rl_method r = m /\ rl_proto r = v /\
        urlparse u = Ok (mkParse (rl_scheme r) (rl_domain r) (rl_path r) (rl_params r) (rl_query r) (rl_fragment r))
    | Err e => urlparse u = Err e
    end.
Proof.
  intros m u v Hm Hu Hv. destruct (urlparse u) as [p|e] eqn:E.
  - pose proof (request_line_ok m u v p Hm Hu Hv E) as H. change space with 32%N in H. rewrite H. cbn.
    now destruct p.
  - unfold parse_request_line. cbn [app]. change 32%N with space in *.
    rewrite splitc_cons by easy. rewrite splitc_cons by easy. rewrite splitc_notin by easy. now rewrite E.
Qed.
Print Assumptions C11_method_and_version_verbatim.
Theorem C11_other_counts_rejected :
  forall l, countc 32%N l <> 2 -> parse_request_line l = Err (InvalidHttpRequest BadRequestLine).
Proof. exact request_line_bad_count. Qed.
Print Assumptions C11_other_counts_rejected.
(** the only other ways to fail are a byte >= 0x80 in the URI and unbalanced brackets *)
Theorem C11_uri_errors :
  forall u, (exists p, urlparse u = Ok p) \/
    (urlparse u = Err UnicodeDecodeError /\ ~ ascii_text u) \/
    (urlparse u = Err ValueError /\ ascii_text u).
Proof.
  intros u. unfold urlparse. rewrite ascii_text_iff. destruct (ascii_only u); [|right; left; easy].
  unfold urlparse_text, urlsplit. destruct (split_scheme u), (split_netloc s0).
  destruct (_ || _); [right; right; easy|]. destruct (cut hash s2), (cut qmark s3). cbn.
  match goal with |- context [let (_, _) := ?x in _] => destruct x end. left. eauto.
Qed.
Print Assumptions C11_uri_errors.
Example C11_case :
  match parse_request_line !"POST http://h:1/p;x?q=1#f HTTP/1.0" with
  | Ok r => (rl_method r, rl_scheme r, rl_domain r, rl_path r) = (!"POST", !"http", !"h:1", !"/p") /\
            (rl_params r, rl_query r, rl_fragment r, rl_proto r) = (!"x", !"q=1", !"f", !"HTTP/1.0")
  | Err _ => False
  end.
Proof. vm_compute. split; reflexivity. Qed.

(** ** C12 *)
Theorem C12_url_split_lossless : forall url u, urlparse url = Ok u ->
  exists s0 S N P Q F,
    url = S ++ N ++ up_path u ++ P ++ Q ++ F /\
    lower s0 = up_scheme u /\ (s0 <> [] /\ S = s0 ++ !":" \/ s0 = [] /\ S = []) /\
    part !"//" (up_netloc u) N /\ part !";" (up_params u) P /\
    part !"?" (up_query u) Q /\ part !"#" (up_fragment u) F /\
    (forall c, In c (up_netloc u) -> c <> 47%N /\ c <> 63%N /\ c <> 35%N) /\
    (forall c, In c (up_path u ++ P) -> c <> 63%N /\ c <> 35%N) /\
    ~ In 35%N (up_query u).
Proof.
  intros url u H. unfold urlparse in H. destruct (ascii_only url); [|easy].
  destruct (urlparse_lossless url u H) as (s0 & S & N & P & Q & F & H1 & H2 & H3 & H4 & H5 & H6 & H7 & _ & H8 & H9 & H10 & _).
  exists s0, S, N, P, Q, F. repeat (split; [assumption|]). split; [|split; assumption].
  intros c Hc. specialize (H8 c Hc). unfold is_netloc_end in H8.
  apply orb_false_iff in H8 as [H8 Hh]. apply orb_false_iff in H8 as [Hs Hq].
  repeat split; apply N.eqb_neq; assumption.
Qed.
Print Assumptions C12_url_split_lossless.
(** and absolute / origin-form URLs put together from components come apart into them *)
Theorem C12_absolute_url_components : forall u, ascii_text (compose u) -> good_parts u ->
  urlparse (compose u) = Ok u.
Proof.
  intros u HA HG. unfold urlparse. apply ascii_text_iff in HA. rewrite HA. now apply urlparse_compose.
Qed.
Print Assumptions C12_absolute_url_components.
Theorem C12_origin_url_components : forall path q f,
  ascii_text (path ++ with_delim !"?" q ++ with_delim !"#" f) ->
  (exists t, path = 47%N :: t /\ startswith t !"/" = false) ->
  (forall c, In c path -> c <> 63%N /\ c <> 35%N /\ c <> 59%N) -> ~ In 35%N q ->
  urlparse (path ++ with_delim !"?" q ++ with_delim !"#" f) = Ok (mkParse [] [] path [] q f).
Proof.
  intros path q f HA H1 H2 H3. unfold urlparse. apply ascii_text_iff in HA. rewrite HA.
  now apply urlparse_origin.
Qed.
Print Assumptions C12_origin_url_components.
Example C12_case : urlparse !"HTTP://u@h:80/a;b/c;d?x=?y#z#" =
  Ok (mkParse !"http" !"u@h:80" !"/a;b/c" !"d" !"x=?y" !"z#").
Proof. vm_compute. reflexivity. Qed.
Example C12_good_parts : good_parts (mkParse !"http" !"h" !"/a;b/c" !"d" !"x" !"z").
Proof.
  constructor; cbn.
  - split; [easy|]. split; [|easy]. intros c H. repeat (destruct H as [<-|H]; [unfold scheme_letter; lia|]). easy.
  - intros c [<-|[]]. unfold ends_authority. lia.
  - easy.
  - right. now eexists.
  - intros c H. repeat (destruct H as [<-|H]; [easy|]). easy.
  - intros c H. repeat (destruct H as [<-|H]; [easy|]). easy.
  - intros _. left. exists !"/a;b", !"c". repeat split; intros H; repeat (destruct H as [H|H]; [easy|]); easy.
  - left. apply (params_iff !"http"). reflexivity.
  - intros H. repeat (destruct H as [H|H]; [easy|]); easy.
Qed.

(** ** C15.  Hosts.  [host_shape s h p] (UrlFacts) describes valid hosts: a name or a
    bracketed literal [h] followed by a port part [p] (empty or ':' and digits). *)
Definition domain_safe (d : str) : Prop :=
  (forall c, In c d -> (is_lower c || is_digit c || N.eqb c 46 || N.eqb c 45) = true) \/
  (exists b, d = !"[" ++ b ++ !"]" /\
     forall c, In c b -> is_digit c || (N.leb 97 c && N.leb c 102) || N.eqb c 46 || N.eqb c 58 = true).

Lemma removelast_In {A} (l : list A) x : In x (removelast l) -> In x l.
Proof.
  induction l as [|a l IH]; [easy|]. cbn. destruct l; [easy|].
  intros [<-|H]; [now left|right; now apply IH].
Qed.
Lemma drop_dot_spec d : d = drop_dot d \/ d = drop_dot d ++ !".".
Proof.
  unfold drop_dot, endswith. destruct (prefixb (rev !".") (rev d)) eqn:E; [right|now left].
  apply prefixb_iff in E as [t Ht]. cbn in Ht. apply (f_equal (@rev N)) in Ht.
  rewrite rev_involutive in Ht. cbn in Ht. subst d. now rewrite removelast_last.
Qed.

Theorem C15_host_decomposition_safe_partial :
  forall host d p, ~ In LF host -> split_domain_port host = (d, p) ->
    domain_safe d /\ (forall c, In c p -> is_digit c = true) /\
    ((d = [] /\ p = []) \/
     exists dot colon_port, lower host = d ++ dot ++ colon_port /\ (dot = [] \/ dot = !".") /\
       (colon_port = [] /\ p = [] \/ p <> [] /\ colon_port = !":" ++ p)).
Proof.
  intros host d p HLF HS.
  destruct (host_match_exact (lower host)) eqn:E.
  - apply host_match_exact_iff in E as (h & q & HH).
    rewrite (split_domain_port_ok host h q HLF HH) in HS. injection HS as <- <-.
    inversion HH as [a pp Ha Hc Hp|x b pp Hx Hb Hb2 Hp]; subst a pp || subst.
    + assert (Hhd : N.eqb (hd 0%N h) lbr = false).
      { destruct h as [|c h]; [easy|]. cbn. apply N.eqb_neq. intros ->. now cbn in Hc. }
      rewrite Hhd. split; [|split].
      * left. intros c Hin. rewrite forallb_forall in Hc. apply Hc.
        unfold drop_dot in Hin. destruct (endswith h !"."); [now apply removelast_In|easy].
      * inversion Hp as [|dd Hd1 Hd2]; subst; [easy|]. cbn. now apply forallb_forall.
      * right. destruct (drop_dot_spec h) as [Hd|Hd].
        -- exists [], q. rewrite <- Hd at 1. repeat split; [now left|].
           inversion Hp; subst; [now left|now right].
        -- exists !".", q. repeat split; [|now right|].
           ++ rewrite app_assoc, <- Hd. easy.
           ++ inversion Hp; subst; [now left|now right].
    + cbn [app hd]. rewrite N.eqb_refl. split; [|split].
      * right. exists (x ++ colon :: b). split; [cbn; now rewrite <- app_assoc|].
        intros c Hin. rewrite forallb_forall in Hx, Hb2. apply in_app_or in Hin as [Hin|[<-|Hin]].
        -- specialize (Hx _ Hin). unfold is_hex_low in Hx. now rewrite Hx.
        -- easy.
        -- apply Hb2 in Hin. exact Hin.
      * inversion Hp as [|dd Hd1 Hd2]; subst; [easy|]. cbn. now apply forallb_forall.
      * right. exists [], q. split; [easy|]. split; [now left|].
        inversion Hp; subst; [now left|now right].
  - assert (Hn : ~ exists h q, host_shape (lower host) h q).
    { intros HH. apply host_match_exact_iff in HH. congruence. }
    rewrite split_domain_port_bad in HS; [|now rewrite lower_LF|exact Hn]. injection HS as <- <-.
    split; [left; easy|]. split; [easy|]. now left.
Qed.
Print Assumptions C15_host_decomposition_safe_partial.
(** valid hosts are accepted and decomposed as written *)
Theorem C15_valid_hosts_accepted :
  forall name p, name <> [] -> (forall c, In c name -> is_host_char c = true) ->
    (forall c, In c p -> is_digit c = true) ->
    split_domain_port (name ++ with_delim !":" p) = (drop_dot name, p).
Proof.
  intros name p Hn Hc Hp.
  assert (HL : lower (name ++ with_delim !":" p) = name ++ with_delim !":" p).
  { unfold lower. rewrite <- (map_id (name ++ _)) at 2. apply map_ext_in. intros c Hin.
    assert (Hlow : is_host_char c = true \/ c = colon \/ is_digit c = true).
    { apply in_app_or in Hin as [Hin|Hin]; [left; now apply Hc|].
      apply with_delim_In in Hin as [[<-|[]]|Hin]; [now right; left|right; right; now apply Hp]. }
    unfold lowerc. destruct (N.leb_spec 65 c), (N.leb_spec c 90); cbn; try easy. exfalso.
    unfold is_host_char, is_lower, is_digit in Hlow.
    destruct Hlow as [Hx|[->|Hx]]; [| unfold colon in *; lia |].
    - rewrite !orb_true_iff, !andb_true_iff, !N.leb_le, !N.eqb_eq in Hx. lia.
    - rewrite !andb_true_iff, !N.leb_le in Hx. lia. }
  assert (HP : port_shape (with_delim !":" p)).
  { destruct p as [|c p]; [constructor|]. cbn. constructor; [easy|]. now apply forallb_forall. }
  rewrite (split_domain_port_ok _ name (with_delim !":" p)).
  - assert (Hhd : N.eqb (hd 0%N name) lbr = false).
    { destruct name as [|c name]; [easy|]. cbn. apply N.eqb_neq. intros ->.
      specialize (Hc lbr (or_introl eq_refl)). easy. }
    rewrite Hhd. f_equal. now destruct p.
  - intros Hin. apply in_app_or in Hin as [Hin|Hin]; [now apply Hc in Hin|].
    apply with_delim_In in Hin as [[Hin|[]]|Hin]; [easy|now apply Hp in Hin].
  - rewrite HL. apply hs_name; [exact Hn|now apply forallb_forall|exact HP].
Qed.
Print Assumptions C15_valid_hosts_accepted.
(** The full statement fails only through the final newline that '$' lets by. *)
Theorem C15_host_decomposition_safe_refuted :
  exists host d p, split_domain_port host = (d, p) /\ (d <> [] \/ p <> []) /\
    ~ domain_safe d /\ exists c, In c p /\ is_digit c = false.
Proof.
  exists (!"[::1]" ++ [LF]), !"[:", (!"1]" ++ [LF]). split; [vm_compute; reflexivity|].
  split; [now left|]. split.
  - intros [H|(b & H & _)].
    + specialize (H 91%N (or_introl eq_refl)). discriminate.
    + destruct b as [|x [|y b]]; discriminate H.
  - exists LF. split; [cbn; tauto|easy].
Qed.
Print Assumptions C15_host_decomposition_safe_refuted.
Example C15_case1 : split_domain_port !"WWW.Example.com.:8080" = (!"www.example.com", !"8080").
Proof. vm_compute. reflexivity. Qed.
Example C15_case2 : split_domain_port !"[FE80::1]:443" = (!"[fe80::1]", !"443").
Proof. vm_compute. reflexivity. Qed.
Example C15_case3 : split_domain_port !"evil.com/x" = ([], []).
Proof. vm_compute. reflexivity. Qed.
