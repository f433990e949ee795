(** * Refutations for all inputs: C106, C107, C113 *)
From Coq Require Import ZifyBool ZifyN ZifyNat.
From Verif Require Import Py Spec HeadSpec PyFacts PyDict CodecModel CodecFacts PercentModel PercentFacts
  QueryModel QuerySpec QueryFacts HeadModel HeaderModel HeaderSpec HeaderFacts UriModel EncModel
  RequestModel RequestSpec PropsData PropsPart PropsRequest PropsBody PropsEnc PropsExt PropsUri PropsUriExact.

(** ** C106.  With '%' declared safe, every text with an escape of an ASCII character comes back changed *)
Theorem C106_percent_safe_refuted :
  forall reg c safe u, reg UTF8_NAME = Some c -> codec_ok c -> In percent safe -> ascii_only u = true ->
    ascii_only (unquote_to_bytes u) = true -> has_escape u ->
    exists q, urlquote reg safe (PU u) = Ok q /\ urlunquote reg (PU q) = Ok (PU (unquote_to_bytes u)) /\ unquote_to_bytes u <> u.
Proof.
  intros reg c safe u Hr Hc Hs Hu Ha He. pose proof (ascii_bytes u Hu) as Hb.
  unfold urlquote, quoted_bytes, encode. rewrite Hr, (cok_enc_ascii c Hc u Hu). cbn [bind].
  eexists. split; [reflexivity|]. split.
  - unfold urlunquote. rewrite (unquote_ascii reg _ c) by (try easy; now apply quote_safe_ascii). cbn [bind].
    rewrite unquote_quote_any; [|apply mem_In, filter_In; split; [exact Hs|reflexivity]|].
    + now rewrite (cok_rep c Hc _ _ (cok_dec_ascii c Hc _ Ha)).
    + unfold bytes_only in Hb. rewrite forallb_forall in Hb. intros x Hx. apply Hb in Hx. unfold is_byte in Hx. lia.
  - intros E. apply unquote_id_iff in E. now apply E.
Qed.
Print Assumptions C106_percent_safe_refuted.
Example C106_percent_safe_case : let u := !"100%25" in
  ascii_only u = true /\ ascii_only (unquote_to_bytes u) = true /\ has_escape u /\ urlquote u8reg !"/%" (PU u) = Ok u.
Proof. split; [reflexivity|]. split; [reflexivity|]. split; [exists !"100", 50%N, 53%N, []; split; [reflexivity|split; cbn; tauto]|reflexivity]. Qed.

(** with '+' declared safe, every '+' of every text in ASCII comes back as a blank *)
Lemma plus_quote safe safe' s : (forall x, x <> plus -> x <> 32%N -> mem x safe' = mem x safe) -> mem plus safe = true -> (In 32%N s -> mem 32%N safe = true) -> mem 32%N safe' = true ->
  replacec plus 32%N (quote safe s) = quote safe' (replacec plus 32%N s).
Proof.
  intros H1 H2 H4 H3. unfold replacec, quote. induction s as [|x s IH]; [reflexivity|]. cbn [flat_map map].
  rewrite map_app, IH by (intros H; apply H4; now right). f_equal.
  unfold quote_byte. destruct (N.eqb_spec x plus) as [->|Hx].
  - rewrite H2, orb_true_r. change (always_safe 32%N) with false. rewrite H3. reflexivity.
  - destruct (N.eqb_spec x 32) as [->|Hx'].
    + change (always_safe 32%N) with false. rewrite H4, H3 by now left. reflexivity.
    + rewrite (H1 x Hx Hx'). destruct (always_safe x || mem x safe); cbn [map].
      * destruct (N.eqb_spec x plus); easy.
      * assert (HH : forall d, N.eqb (hexdig d) plus = false).
        { intros d. unfold hexdig. apply N.eqb_neq. change plus with 43%N. destruct (N.ltb_spec d 10); lia. }
        rewrite !HH. reflexivity.
Qed.

Lemma replacec_twice s : replacec plus 32%N (replacec 32%N plus s) = replacec plus 32%N s.
Proof.
  unfold replacec. rewrite map_map. apply map_ext. intros x. destruct (N.eqb_spec x 32) as [->|H]; [reflexivity|]. reflexivity.
Qed.
Definition plus_to_blank (u : str) : str := map (fun x => if N.eqb x 43 then 32%N else x) u.
Theorem C106_plus_safe_refuted :
  forall reg c safe u, reg UTF8_NAME = Some c -> codec_ok c -> In plus safe -> ~ In percent safe -> ascii_only u = true -> In 43%N u ->
    exists q, urlquote_plus reg safe (PU u) = Ok q /\ urlunquote_plus reg (PU q) = Ok (PU (plus_to_blank u)) /\ plus_to_blank u <> u.
Proof.
  intros reg c safe u Hr Hc Hs Hp Hu Hin. pose proof (ascii_bytes u Hu) as Hb.
  assert (Hq : forall sf, urlquote reg sf (PU u) = Ok (quote (safe_ascii sf) u)).
  { intros sf. unfold urlquote, quoted_bytes, encode. rewrite Hr, (cok_enc_ascii c Hc u Hu). reflexivity. }
  assert (HA : ascii_only (replacec plus 32%N u) = true) by now apply replacec_ascii.
  assert (HU : forall sf, mem percent sf = false -> (forall x, In x sf -> (x < 128)%N) ->
    unquote reg UTF8_NAME (quote sf (replacec plus 32%N u)) = Ok (replacec plus 32%N u)).
  { intros sf Hsf Hsa. pose proof (ascii_bytes _ HA) as HB. rewrite (unquote_ascii reg _ c) by (try easy; apply forallb_forall; intros x Hx; apply N.ltb_lt; now apply (quote_ascii sf _ HB)).
    rewrite unquote_quote by easy. now rewrite (cok_rep c Hc _ _ (cok_dec_ascii c Hc _ HA)). }
  assert (HM : forall sf x, mem x (safe_ascii (sf ++ [32%N])) = mem x (safe_ascii sf) || N.eqb x 32).
  { intros sf x. unfold safe_ascii. rewrite filter_app. change (filter is_ascii [32%N]) with [32%N]. destruct (mem x (filter is_ascii sf ++ [32%N])) eqn:E.
    - apply mem_In, in_app_or in E as [E|[E|[]]]; [apply mem_In in E; now rewrite E|subst; now rewrite orb_true_r].
    - destruct (mem x (filter is_ascii sf)) eqn:E1; [apply mem_In in E1; rewrite (proj2 (mem_In x (filter is_ascii sf ++ [32%N]))) in E by (apply in_or_app; now left); easy|].
      destruct (N.eqb_spec x 32) as [->|]; [|reflexivity]. rewrite (proj2 (mem_In 32%N (filter is_ascii sf ++ [32%N]))) in E by (apply in_or_app; right; now left). easy. }
  assert (HP : forall sf, In plus sf -> mem plus (safe_ascii sf) = true) by (intros sf H; apply mem_In, filter_In; now split).
  assert (HW : forall sf, In plus sf -> ~ In percent sf -> (In 32%N u -> mem 32%N (safe_ascii sf) = true) ->
    unquote reg UTF8_NAME (replacec plus 32%N (quote (safe_ascii sf) u)) = Ok (replacec plus 32%N u)).
  { intros sf S1 S2 S3. rewrite (plus_quote (safe_ascii sf) (safe_ascii (sf ++ [32%N]))).
    - apply HU; [|intros x Hx; now apply safe_ascii_In in Hx]. rewrite HM. rewrite safe_ascii_mem by exact S2. reflexivity.
    - intros x Hx Hx'. rewrite HM. apply N.eqb_neq in Hx'. now rewrite Hx', orb_false_r.
    - now apply HP.
    - exact S3.
    - rewrite HM. apply orb_true_r. }
  assert (HR : replacec plus 32%N u <> u).
  { intros E. assert (HX : In plus (replacec plus 32%N u)) by (rewrite E; exact Hin). apply in_map_iff in HX as (y & Hy & _).
    destruct (N.eqb_spec y plus); [discriminate Hy|easy]. }
  unfold urlquote_plus, urlunquote_plus. cbn [pchars]. destruct (mem 32%N u) eqn:Em.
  - rewrite Hq. cbn [bind]. eexists. split; [reflexivity|]. rewrite replacec_twice. rewrite HW.
    + now split.
    + apply in_or_app. now left.
    + intros [H|[H|[]]]%in_app_or; [now apply Hp|discriminate H].
    + intros _. rewrite HM. apply orb_true_r.
  - rewrite Hq. eexists. split; [reflexivity|]. rewrite HW; try easy. intros H. apply mem_In in H. now rewrite H in Em.
Qed.
Print Assumptions C106_plus_safe_refuted.

(** ** C107.  Without doseq every sequence of values becomes one value, the text of a Python list *)
Definition plain_value (i : uitem) : Prop := exists b, i = IStr (PB b) /\ Forall (fun x => (32 <= x < 127)%N /\ x <> 34%N /\ x <> 39%N /\ x <> 92%N) b.
Definition list_of (l : list uitem) : str :=
  !"[" ++ join !", " (map (fun i => match i with IStr (PB b) => !"'" ++ b ++ !"'" | _ => [] end) l) ++ !"]".
Lemma plain_list l : Forall plain_value l ->
  exists bs, items_native l = Ok bs /\ list_text bs = list_of l /\ ascii_only (list_of l) = true.
Proof.
  intros H.
  assert (HX : exists bs, items_native l = Ok bs /\ map quoted bs = map (fun i => match i with IStr (PB b) => !"'" ++ b ++ !"'" | _ => [] end) l /\
    Forall (fun b => ascii_only b = true) (map quoted bs)).
  { induction H as [|i l (b & -> & Hb) HF (bs & I1 & I2 & I3)]; [exists []; repeat split; constructor|].
    exists (b :: bs). cbn [items_native item_native to_native bind]. rewrite I1. cbn [bind map]. split; [reflexivity|].
    assert (Em : mem 39%N b = false).
    { destruct (mem 39%N b) eqn:E; [|reflexivity]. apply mem_In in E. rewrite Forall_forall in Hb. now apply Hb in E. }
    assert (Eq : quoted b = !"'" ++ b ++ !"'") by (unfold quoted; now rewrite Em). rewrite <- I2, Eq. split; [reflexivity|]. constructor; [|exact I3].
    rewrite !ascii_only_app. apply andb_true_iff. split; [reflexivity|]. apply andb_true_iff. split; [|reflexivity]. apply forallb_forall.
    rewrite Forall_forall in Hb. intros x Hx. apply Hb in Hx. unfold is_ascii. lia. }
  destruct HX as (bs & H1 & H2 & H3). exists bs. split; [exact H1|]. unfold list_text, list_of. rewrite <- H2. split; [reflexivity|].
  rewrite !ascii_only_app. apply andb_true_iff. split; [reflexivity|]. apply andb_true_iff. split; [|reflexivity].
  clear -H3. induction H3 as [|x l Hx HF IH]; [reflexivity|]. destruct l as [|y l]; [exact Hx|]. rewrite join_cons, !ascii_only_app, Hx, IH. reflexivity.
Qed.
Theorem C107_no_doseq_all_refuted :
  forall reg c k l, reg UTF8_NAME = Some c -> codec_ok c -> quotable c k -> Forall plain_value l ->
    exists s, urlencode reg false [(k, VSeq l)] = Ok s /\ limited_parse_qsl reg s true UTF8_NAME None = Ok [(text c k, list_of l)].
Proof.
  intros reg c k l Hr Hc Hk Hl. destruct (plain_list l Hl) as (bs & H1 & H2 & H3). destruct (quotable_bytes reg c k Hr Hc Hk) as (kb & K1 & K2 & K3).
  unfold urlencode. cbn [query_params query_val]. rewrite H1. cbn [bind orig_pairs]. unfold orig_pair. rewrite K1. cbn [bind map app join].
  rewrite H2. eexists. split; [reflexivity|].
  destruct (pair_parses reg c kb (list_of l) Hr Hc K2 (ascii_bytes _ H3)) as [P1 P2]. cbv zeta in P1, P2.
  unfold limited_parse_qsl. cbn [qsl_pairs bind]. pose proof (fields_split_join [quote_plus kb ++ [equal] ++ quote_plus (list_of l)] ltac:(discriminate) ltac:(now constructor)) as E.
  cbn [join] in E. change (equal :: quote_plus (list_of l)) with ([equal] ++ quote_plus (list_of l)). rewrite E, qsl_loop_cons, P2. cbn [bind qsl_loop app]. now rewrite K3, (cok_rep c Hc _ _ (cok_dec_ascii c Hc _ H3)).
Qed.
Print Assumptions C107_no_doseq_all_refuted.
Example C107_no_doseq_case : Forall plain_value [IStr (PB !"1"); IStr (PB !"b c")] /\ list_of [IStr (PB !"1"); IStr (PB !"b c")] = !"['1', 'b c']".
Proof.
  split; [|reflexivity]. repeat apply Forall_cons; [..|apply Forall_nil]; eexists; (split; [reflexivity|]); repeat apply Forall_cons; try apply Forall_nil; repeat split; discriminate.
Qed.

(** ** C113.  Every extended value that stands in double quotes loses them *)
Lemma replace2_notin p1 p2 r s : ~ In p1 s -> replace2 p1 p2 r s = s.
Proof.
  induction s as [|x s IH]; intros H; [reflexivity|]. rewrite replace2_cons_other by (intros ->; apply H; now left).
  now rewrite IH by (intros Hi; apply H; now right).
Qed.
Theorem C113_quotes_all_refuted :
  forall reg main n charset lang v w, ascii_only main = true -> ~ In 59%N main -> ~ In 34%N main ->
    is_token n = true -> is_token charset = true -> forallb is_token_char lang = true -> forallb is_token_char v = true ->
    (exists c b, reg charset = Some c /\ codec_ok c /\ c_enc c ([34%N] ++ w ++ [34%N]) = Some b /\ pct_decodes v b) -> ~ In 92%N w ->
    exists d, parse_header reg (render_pars main [Ext n charset lang v ([34%N] ++ w ++ [34%N])]) = Ok (lower (strip main), d) /\
      dget (lower n) d = Some (PU w).
Proof.
  intros reg main n enc lang v w M1 M2 M3 Hn He Hl Hv (c & b & R1 & R2 & R3 & R4) Hw.
  set (t := [34%N] ++ w ++ [34%N]) in *. destruct (ext_quiet n enc lang v t Hn He Hl Hv) as [Q1 Q2].
  assert (EQ : qsplit false (render_pars main [Ext n enc lang v t]) = [main; 32%N :: par_text (Ext n enc lang v t)]).
  { unfold render_pars. cbn [flat_map]. rewrite app_nil_r.
    change (!"; " ++ par_text (Ext n enc lang v t)) with (hsemi :: 32%N :: par_text (Ext n enc lang v t)).
    rewrite qsplit_piece; [|now apply qend_none|now apply qodd_notin]. f_equal. now apply qsplit_single. }
  assert (HU : unquote_value t = w).
  { unfold t, unquote_value. cbn [app length hd tl]. rewrite app_length. cbn [length].
    replace (2 <=? S (length w + 1)) with true by (symmetry; apply Nat.leb_le; lia). change (N.eqb 34 hquote) with true. cbn [andb].
    change (34%N :: w ++ [34%N]) with ((34%N :: w) ++ [34%N]). rewrite last_last. change (N.eqb 34 hquote) with true. cbv iota. rewrite removelast_last.
    rewrite (replace2_notin hback hback) by exact Hw. now apply replace2_notin. }
  unfold parse_header. rewrite parse_header_params_spec, EQ. cbn [map]. unfold decode_ascii at 1. rewrite lower_ascii by now apply strip_ascii. cbn [bind parse_params].
  rewrite parse_ext_eq by assumption. rewrite (unquote_ascii reg enc c v R1 R2) by now apply tchars_ascii. cbn [bind].
  rewrite <- (pct_decodes_unquote v b R4). rewrite (cok_rep c R2 b t) by now apply (cok_roundtrip c R2). rewrite HU. cbn [bind].
  eexists. split; [reflexivity|]. apply dget_dset_same.
Qed.
Print Assumptions C113_quotes_all_refuted.
Example C113_quotes_case : exists d, parse_header ex_reg (render_pars !"a" [Ext !"N" !"utf-8" [] !"%22x%22" ([34%N] ++ !"x" ++ [34%N])]) = Ok (!"a", d) /\
  dget !"n" d = Some (PU !"x").
Proof.
  destruct (C113_quotes_all_refuted ex_reg !"a" !"N" !"utf-8" [] !"%22x%22" !"x") as (d & E & H); try reflexivity; try (now intros [H|[]]).
  - exists (utf8 (fun s => s)), ([34%N] ++ !"x" ++ [34%N]). split; [reflexivity|]. split; [apply utf8_ok|]. split; [reflexivity|].
    apply (pct_hex _ _ 2 2); [left; reflexivity..|]. apply pct_plain; [discriminate|]. apply (pct_hex _ _ 2 2); [left; reflexivity..|]. apply pct_nil.
  - now exists d.
Qed.
