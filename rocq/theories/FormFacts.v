(** * Parsing a rendered form *)
From Coq Require Import ZifyBool ZifyN ZifyNat.
From Verif Require Import Py PyFacts PyDict Spec StreamModel StreamSpec StreamFacts CodecModel QueryModel
  Base64Model HeaderModel HeaderSpec HeaderFacts BoundaryModel BoundarySpec BoundaryFacts PartFacts UploadModel
  MultipartModel MultipartSem MultipartFacts MultipartSpec MultipartDet FormSpec.

(** ** Lines *)
Lemma find_line l x X : no_newline l -> x <> 13%N ->
  find crlfcrlf (l ++ crlf ++ x :: X) = option_map (fun i => length l + 2 + i) (find crlfcrlf (x :: X)).
Proof.
  intros [H1 H2] Hx. induction l as [|c l IH].
  - cbn [app length]. rewrite find_eq. cbn [crlf app]. change (prefixb crlfcrlf _) with
      (N.eqb 13 13 && (N.eqb 10 10 && (N.eqb 13 x && prefixb [10%N] X))).
    replace (N.eqb 13 x) with false by lia. cbn [andb N.eqb Pos.eqb].
    rewrite find_eq. change (prefixb crlfcrlf (10%N :: x :: X)) with false. cbv iota.
    now destruct (find crlfcrlf (x :: X)).
  - cbn [app]. rewrite find_eq.
    change (prefixb crlfcrlf (c :: l ++ crlf ++ x :: X)) with
      (N.eqb 13 c && prefixb [10%N; 13%N; 10%N] (l ++ crlf ++ x :: X)).
    replace (N.eqb 13 c) with false by (cbn in H1; lia). cbn [andb].
    rewrite IH by (cbn in *; tauto). now destruct (find crlfcrlf (x :: X)).
Qed.
Lemma find_end l X : no_newline l -> find crlfcrlf (l ++ crlfcrlf ++ X) = Some (length l).
Proof.
  intros [H1 H2]. induction l as [|c l IH]; [reflexivity|]. cbn [app]. rewrite find_eq.
  change (prefixb crlfcrlf (c :: l ++ crlfcrlf ++ X)) with
      (N.eqb 13 c && prefixb [10%N; 13%N; 10%N] (l ++ crlfcrlf ++ X)).
  replace (N.eqb 13 c) with false by (cbn in H1; lia). cbn [andb].
  rewrite IH by (cbn in *; tauto). reflexivity.
Qed.
Lemma find_lines X : forall ls l, no_newline l -> l <> [] -> Forall (fun l => no_newline l /\ l <> []) ls ->
  find crlfcrlf (join crlf (l :: ls) ++ crlfcrlf ++ X) = Some (length (join crlf (l :: ls))).
Proof.
  induction ls as [|l' ls IH]; intros l Hl Hn HF.
  - cbn [join]. now apply find_end.
  - inversion_clear HF as [|? ? [Hl' Hn'] HF']. rewrite join_cons, <- !app_assoc.
    specialize (IH l' Hl' Hn' HF').
    assert (HX : exists y X', join crlf (l' :: ls) = y :: X' /\ y <> 13%N).
    { destruct l' as [|y l']; [easy|]. exists y. destruct ls; cbn; eexists; (split; [reflexivity|]);
        intros ->; apply (proj1 Hl'); now left. }
    destruct HX as (y & X' & HX & Hy). rewrite HX in *. cbn [app]. rewrite find_line; [|easy|easy].
    cbn [app] in IH. rewrite IH. cbn [option_map]. f_equal. rewrite !app_length. change (length crlf) with 2. lia.
Qed.

Lemma occurs_crlf_line l : no_newline l -> ~ occurs crlf l.
Proof. intros [H _] (u & v & ->). apply H. apply in_or_app. right. now left. Qed.
Lemma crlf_first' u v : no_newline u -> first_occ crlf (u ++ crlf ++ v) u v.
Proof.
  intros H. split; [easy|]. intros u' v' Heq.
  destruct (Nat.le_gt_cases (length u) (length u')) as [?|Hlt]; [easy|exfalso].
  symmetry in Heq. destruct (app_eq_split u' _ u _ Heq ltac:(lia)) as (e & -> & He).
  destruct e as [|c e]; [rewrite app_nil_r in Hlt; lia|]. cbn in He. injection He as <- He.
  apply (proj1 H). apply in_or_app. right. now left.
Qed.
Lemma split_none p s : p <> [] -> ~ occurs p s -> split p s = [s].
Proof. intros Hp H. rewrite split_unfold by easy. apply find_None in H. now rewrite H. Qed.
Lemma split_lines : forall ls l, no_newline l -> Forall no_newline ls ->
  split crlf (join crlf (l :: ls)) = l :: ls.
Proof.
  induction ls as [|l' ls IH]; intros l Hl HF.
  - cbn [join]. apply split_none; [easy|now apply occurs_crlf_line].
  - inversion_clear HF as [|? ? Hl' HF']. rewrite join_cons, split_first; [|easy|now apply crlf_first'].
    now rewrite IH.
Qed.

(** ** Headers *)
Lemma escape_In c v : In c (escape v) -> c = 92%N \/ In c v.
Proof.
  unfold escape. rewrite in_flat_map. intros (x & Hx & Hc). destruct (N.eqb x 92 || N.eqb x 34).
  - destruct Hc as [<-|[<-|[]]]; auto.
  - destruct Hc as [<-|[]]; auto.
Qed.
Lemma no_newline_app a b : no_newline a -> no_newline b -> no_newline (a ++ b).
Proof. intros [H1 H2] [H3 H4]. split; intros H; apply in_app_or in H; tauto. Qed.
Lemma no_newline_check a : forallb (fun c => negb (N.eqb c 13) && negb (N.eqb c 10)) a = true -> no_newline a.
Proof.
  rewrite forallb_forall. intros H. split; intros Hin; specialize (H _ Hin); cbn in H; easy.
Qed.
Lemma no_newline_quo v : no_newline v -> no_newline (render_val (Quo v)).
Proof.
  intros [H1 H2]. cbn [render_val]. apply no_newline_app; [now apply no_newline_check|].
  apply no_newline_app; [|now apply no_newline_check].
  split; intros H; apply escape_In in H; destruct H as [H|H]; try discriminate H; tauto.
Qed.

Lemma disp_line_ok p : quotable (pt_name p) -> match pt_file p with Some f => quotable f | None => True end ->
  no_newline (disp_line p) /\ disp_line p <> [].
Proof.
  intros (Hn & _) Hf. split; [|easy]. unfold disp_line, render. apply no_newline_app; [now apply no_newline_check|].
  cbn [flat_map]. apply no_newline_app.
  - unfold render_param. cbn [fst snd]. apply no_newline_app; [now apply no_newline_check|].
    apply no_newline_app; [now apply no_newline_check|]. apply no_newline_app; [now apply no_newline_check|].
    now apply no_newline_quo.
  - destruct (pt_file p) as [f|]; [|now apply no_newline_check]. cbn [flat_map]. rewrite app_nil_r.
    destruct Hf as (Hf & _). unfold render_param. cbn [fst snd]. apply no_newline_app; [now apply no_newline_check|].
    apply no_newline_app; [now apply no_newline_check|]. apply no_newline_app; [now apply no_newline_check|].
    now apply no_newline_quo.
Qed.
Lemma type_line_ok t : type_ok t -> no_newline (render (!"Content-Type: " ++ fst t) (snd t)) /\
  render (!"Content-Type: " ++ fst t) (snd t) <> [].
Proof.
  intros (_ & _ & _ & H). split; [|easy]. unfold render in *. rewrite <- app_assoc.
  apply no_newline_app; [now apply no_newline_check|easy].
Qed.

(** the type and subtype *)
Definition type_char (c : char) : bool := is_token_char c || N.eqb c 47.
Lemma type_check (P : char -> bool) : forallb P token_chars = true -> P 47%N = true ->
  forall c, type_char c = true -> P c = true.
Proof. intros H1 H2 c [H|H]%orb_true_iff; [now apply (token_check P)|]. apply N.eqb_eq in H. now subst. Qed.
Lemma type_all (P : char -> bool) s : forallb P token_chars = true -> P 47%N = true ->
  forallb type_char s = true -> forallb P s = true.
Proof. intros H1 H2. rewrite !forallb_forall. intros H c Hc. apply (type_check P H1 H2). now apply H. Qed.

Lemma type_main t : forallb type_char t = true -> main_ok (!"Content-Type: " ++ t) = true.
Proof.
  intros H. unfold main_ok. rewrite ascii_only_app, !mem_app.
  rewrite (type_all is_ascii t eq_refl eq_refl H : ascii_only t = true).
  assert (H1 : mem hsemi t = false).
  { apply mem_nIn. intros Hc. pose proof (type_all (fun x => negb (N.eqb x hsemi)) t eq_refl eq_refl H) as HA.
    rewrite forallb_forall in HA. specialize (HA _ Hc). easy. }
  assert (H2 : mem hquote t = false).
  { apply mem_nIn. intros Hc. pose proof (type_all (fun x => negb (N.eqb x hquote)) t eq_refl eq_refl H) as HA.
    rewrite forallb_forall in HA. specialize (HA _ Hc). easy. }
  now rewrite H1, H2.
Qed.
Lemma type_ws t : forallb type_char t = true -> forall c, In c t -> is_uws c = false.
Proof.
  intros H c Hc. pose proof (type_all (fun x => negb (is_uws x)) t eq_refl eq_refl H) as HA.
  rewrite forallb_forall in HA. specialize (HA _ Hc). now apply negb_true_iff.
Qed.
Lemma lower_In c s : In c (lower s) -> exists x, In x s /\ c = lowerc x.
Proof. unfold lower. rewrite in_map_iff. intros (x & <- & Hx). eauto. Qed.
Lemma type_strip t : t <> [] -> forallb type_char t = true -> strip (!"Content-Type: " ++ t) = !"Content-Type: " ++ t.
Proof.
  intros Hn H. apply strip_by_tight. change (!"Content-Type: ") with (!"Content-Type:" ++ !" ").
  assert (HT : tight_by is_ws t = true).
  { apply tight_by_all. intros c Hc. pose proof (type_ws t H c Hc) as HW. unfold is_uws in HW.
    destruct (is_ws c); [easy|easy]. }
  unfold tight_by. cbn [app]. change (lit "Content-Type:" ++ lit " ") with (lit "Content-Type: ").
  destruct t as [|y t]; [easy|].
  change (!"Content-Type: " ++ y :: t) with (67%N :: (!"ontent-Type: " ++ y :: t)).
  unfold tight_by in HT. apply andb_true_iff in HT as [_ HT].
  replace (last (67%N :: (!"ontent-Type: " ++ y :: t)) 67%N) with (last (y :: t) y); [now rewrite HT|].
  clear. change (67%N :: (!"ontent-Type: " ++ y :: t)) with (!"Content-Type: " ++ y :: t).
  generalize (!"Content-Type: "). intros l. induction l as [|z l IH]; cbn [app].
  - clear. revert y. induction t as [|w b IH]; intros y; [easy|].
    change (last (y :: w :: b) y) with (last (w :: b) y). change (last (y :: w :: b) 67%N) with (last (w :: b) 67%N).
    clear. revert w. induction b as [|v b IH]; intros w; [easy|]. apply (IH v).
  - rewrite IH. now destruct (l ++ y :: t) eqn:E; [destruct l|].
Qed.
Lemma type_header reg t ps : t <> [] -> forallb type_char t = true -> Forall (fun p => param_ok p = true) ps ->
  exists d, part_header reg (render (!"Content-Type: " ++ t) ps) = Ok (!"content-type", (32%N :: lower t, d)) /\
    forall n, dget n d = option_map PB (last_value n ps).
Proof.
  intros Hn Ht Hp. destruct (parse_header_render reg (!"Content-Type: " ++ t) ps (type_main t Ht) Hp) as (d & H1 & H2).
  exists d. split; [|easy]. unfold part_header. rewrite H1, type_strip by easy. cbn [bind fst snd].
  rewrite lower_app. reflexivity.
Qed.
Lemma type_ustrip t : forallb type_char t = true -> ustrip (32%N :: lower t) = lower t.
Proof.
  intros H. destruct t as [|x t]; [reflexivity|].
  change (32%N :: lower (x :: t)) with ([32%N] ++ lower (x :: t)). rewrite <- (app_nil_r (lower (x :: t))) at 1.
  apply strip_by_pad; [|easy|easy|easy]. apply tight_by_all. intros c Hc. apply lower_In in Hc. destruct Hc as (y & Hy & ->).
  pose proof (type_all (fun x => negb (is_uws (lowerc x))) _ eq_refl eq_refl H) as HA.
  rewrite forallb_forall in HA. specialize (HA _ Hy). now apply negb_true_iff.
Qed.

Lemma disp_header reg p : quotable (pt_name p) -> match pt_file p with Some f => quotable f | None => True end ->
  exists d, part_header reg (disp_line p) = Ok (CDISP, (!" form-data", d)) /\
    dget !"name" d = Some (PB (pt_name p)) /\ dget !"filename" d = option_map PB (pt_file p).
Proof.
  intros (_ & Hb & _) Hf.
  set (ps := (!"name", Quo (pt_name p)) :: match pt_file p with Some f => [(!"filename", Quo f)] | None => [] end).
  assert (HF : Forall (fun q => param_ok q = true) ps).
  { constructor; [unfold param_ok; cbn [snd pval_ok]; rewrite Hb; reflexivity|].
    destruct (pt_file p) as [f|]; [|constructor]. destruct Hf as (_ & Hfb & _).
    constructor; [unfold param_ok; cbn [snd pval_ok]; rewrite Hfb; reflexivity|constructor]. }
  destruct (parse_header_render reg !"Content-Disposition: form-data" ps eq_refl HF) as (d & H1 & H2).
  exists d. split; [|split].
  - unfold part_header, disp_line. fold ps. rewrite H1. reflexivity.
  - rewrite H2. unfold ps. now destruct (pt_file p).
  - rewrite H2. unfold ps. now destruct (pt_file p).
Qed.
Lemma enc_header reg : part_header reg !"Content-Transfer-Encoding: base64" =
  Ok (!"content-transfer-encoding", (!" base64", [])).
Proof. reflexivity. Qed.
Lemma type_params t : type_ok t -> Forall (fun p => param_ok p = true) (snd t).
Proof.
  intros (_ & _ & H & _). eapply Forall_impl; [|exact H]. intros [n v] (H1 & H2 & H3).
  unfold param_ok, pname_ok. cbn [fst snd] in *. rewrite H1. change [hstar] with !"*". rewrite H2. cbn [andb negb].
  now destruct v.
Qed.

Lemma part_head_ok D p : part_ok D p -> head_ok p.
Proof.
  intros (Hn & Hf & Ht & Hl & _). split; [easy|]. split; [|easy]. destruct (pt_file p) as [f|]; [|easy].
  destruct Hf as ((Hq & Hne & _) & _). easy.
Qed.
Definition kind (p : part) : ptype := match pt_file p with Some _ => FILE | None => FIELD end.
Lemma header_meta_part reg p : head_ok p ->
  exists m d, header_meta reg ([] :: disp_line p :: type_lines p ++ enc_lines p) RAW [] = Ok (kind p, m) /\
    dget CDISP m = Some (!" form-data", d) /\
    dget !"name" d = Some (PB (pt_name p)) /\ dget !"filename" d = option_map PB (pt_file p) /\
    (exists x, dget !"content-type" m = x /\
      match pt_type p with
      | None => x = None
      | Some (t, ps) => exists e, x = Some (32%N :: lower t, e) /\ forall n, dget n e = option_map PB (last_value n ps)
      end) /\
    dget !"content-transfer-encoding" m = if pt_b64 p then Some (!" base64", []) else None.
Proof.
  intros (Hn & Hf & Ht & _).
  assert (Hfq : match pt_file p with Some f => quotable f | None => True end).
  { destruct (pt_file p) as [f|]; [|easy]. apply Hf. }
  destruct (disp_header reg p Hn Hfq) as (d & H1 & H2 & H3).
  cbn [header_meta]. change (part_header reg []) with (@Err (str * (str * dict pystr)) ValueError).
  cbn [is_value_error]. cbv iota. rewrite H1. cbn [fst snd]. change (seqb CDISP CDISP) with true. cbv iota.
  assert (Hk : (if truthy_param !"filename" d then FILE else FIELD) = kind p).
  { unfold truthy_param, kind. rewrite H3. destruct (pt_file p) as [f|]; [|easy]. cbn [option_map].
    destruct Hf as (_ & Hne). now destruct f. }
  rewrite Hk.
  unfold type_lines, enc_lines. destruct (pt_type p) as [[t ps]|].
  - destruct (type_header reg t ps) as (e & H4 & H5); [apply Ht|apply Ht|now apply (type_params (t, ps))|].
    cbn [app header_meta]. rewrite H4. cbn [fst snd]. change (seqb !"content-type" CDISP) with false. cbv iota.
    destruct (pt_b64 p); cbn [header_meta]; rewrite ?enc_header; cbv iota beta.
    + change (seqb !"content-transfer-encoding" CDISP) with false. cbv iota.
      eexists _, d. split; [reflexivity|]. split; [reflexivity|]. split; [easy|]. split; [easy|]. split; [|reflexivity].
      eexists. split; [reflexivity|]. exists e. split; [reflexivity|easy].
    + eexists _, d. split; [reflexivity|]. split; [reflexivity|]. split; [easy|]. split; [easy|]. split; [|reflexivity].
      eexists. split; [reflexivity|]. exists e. split; [reflexivity|easy].
  - cbn [app]. destruct (pt_b64 p); cbn [header_meta]; rewrite ?enc_header; cbv iota beta.
    + change (seqb !"content-transfer-encoding" CDISP) with false. cbv iota.
      eexists _, d. split; [reflexivity|]. split; [reflexivity|]. split; [easy|]. split; [easy|]. split; [|reflexivity].
      eexists. split; reflexivity.
    + eexists _, d. split; [reflexivity|]. split; [reflexivity|]. split; [easy|]. split; [easy|]. split; [|reflexivity].
      eexists. split; reflexivity.
Qed.

Lemma lines_ok p : head_ok p -> no_newline (disp_line p) /\ disp_line p <> [] /\
  Forall (fun l => no_newline l /\ l <> []) (type_lines p ++ enc_lines p).
Proof.
  intros (Hn & Hf & Ht & _).
  assert (Hfq : match pt_file p with Some f => quotable f | None => True end).
  { destruct (pt_file p) as [f|]; [|easy]. apply Hf. }
  destruct (disp_line_ok p Hn Hfq) as [H1 H2]. split; [easy|]. split; [easy|].
  apply Forall_app. split.
  - unfold type_lines. destruct (pt_type p) as [[t ps]|]; [|constructor]. constructor; [|constructor].
    now apply (type_line_ok (t, ps)).
  - unfold enc_lines. destruct (pt_b64 p); [|constructor]. constructor; [|constructor]. split; [now apply no_newline_check|easy].
Qed.

Lemma classify_part reg p : head_ok p ->
  classify reg (render_part p) =
    let* h := header_meta reg ([] :: disp_line p :: type_lines p ++ enc_lines p) RAW [] in
    Ok (fst h, snd h, pt_raw p).
Proof.
  intros HP. destruct (lines_ok p HP) as (H1 & H2 & H3). destruct HP as (_ & _ & _ & Hlen).
  unfold classify, render_part.
  set (H := crlf ++ part_head p). assert (HH : length H = length (part_head p) + 2) by (unfold H; rewrite app_length; cbn; lia).
  replace (crlf ++ part_head p ++ crlfcrlf ++ pt_raw p) with (H ++ crlfcrlf ++ pt_raw p) by (unfold H; now rewrite <- !app_assoc).
  assert (HF : firstn head_size (H ++ crlfcrlf ++ pt_raw p) = H ++ crlfcrlf ++ firstn (head_size - length H - 4) (pt_raw p)).
  { rewrite firstn_app. rewrite firstn_all2 by (unfold head_size; lia). f_equal.
    rewrite firstn_app. rewrite firstn_all2 by (change (length crlfcrlf) with 4; unfold head_size; lia). now f_equal. }
  rewrite HF.
  assert (HFi : find crlfcrlf (H ++ crlfcrlf ++ firstn (head_size - length H - 4) (pt_raw p)) = Some (length H)).
  { unfold H, part_head. rewrite <- app_assoc.
    assert (HX : exists y X', join crlf (disp_line p :: type_lines p ++ enc_lines p) = y :: X' /\ y <> 13%N).
    { destruct (disp_line p) as [|y l']; [easy|]. exists y. destruct (type_lines p ++ enc_lines p); cbn; eexists; (split; [reflexivity|]);
        intros ->; apply (proj1 H1); now left. }
    destruct HX as (y & X' & HX & Hy).
    match goal with |- context [firstn ?k (pt_raw p)] => pose proof (find_lines (firstn k (pt_raw p)) _ _ H1 H2 H3) as HL end.
    rewrite HX in *. cbn [app] in *.
    match goal with |- find _ (crlf ++ y :: ?Z) = _ => pose proof (find_line [] y Z ltac:(split; easy) Hy) as HL2 end.
    cbn [app] in HL2. rewrite HL2, HL. reflexivity. }
  rewrite HFi. rewrite firstn_app_exact.
  replace (skipn (length H + 4) (H ++ crlfcrlf ++ pt_raw p)) with (pt_raw p).
  2:{ rewrite <- skipn_skipn', skipn_app_exact. reflexivity. }
  unfold H, part_head. change (crlf ++ join crlf (disp_line p :: type_lines p ++ enc_lines p))
    with (join crlf ([] :: disp_line p :: type_lines p ++ enc_lines p)).
  rewrite split_lines; [easy|split; easy|]. constructor; [easy|]. eapply Forall_impl; [|exact H3]. now intros a [Ha _].
Qed.

(** ** The piece of a part *)
Definition ctype_for (h : pmeta) (p : part) : Prop :=
  ustrip (fst (ctype_of h)) = type_name p /\ forall n, dget n (snd (ctype_of h)) = type_param n p.
Definition item_for (p : part) (it : item) : Prop :=
  match pt_file p with
  | None => exists h, it = KField (pt_name p) None h (pt_raw p) /\ ctype_for h p
  | Some f => exists i, it = KFile i (pt_data p) /\ fi_field i = pt_name p /\ fi_name i = f /\
      fi_ctype i = type_name p /\ (forall n, dget n (fi_extra i) = type_param n p) /\
      fi_charset i = type_param !"charset" p /\ fi_tenc i = (if pt_b64 p then Some !"base64" else None)
  end.

Lemma unescape_plain name2cp f : ~ In 38%N f -> unescape_entities name2cp f = Ok f.
Proof.
  unfold unescape_entities. assert (HG : forall n s, ~ In 38%N s -> length s < n -> unescape_loop n name2cp s = Ok s).
  { induction n as [|n IH]; intros s Hs Hl; [lia|]. destruct s as [|c s]; [easy|]. cbn [unescape_loop].
    unfold eamp. replace (N.eqb c 38) with false by (cbn in Hs; lia). rewrite IH; [easy|cbn in Hs; tauto|cbn in Hl; lia]. }
  intros H. apply HG; [easy|lia].
Qed.
Lemma ie_plain f : ~ In 92%N f -> strip f = f -> ie_sanitize f = f.
Proof.
  intros H Hs. unfold ie_sanitize. destruct f as [|x f]; [easy|]. apply rfindc_None in H.
  change hback with 92%N. now rewrite H.
Qed.

Lemma item_part reg name2cp p D : part_ok D p ->
  exists it, item_of reg name2cp (render_part p) it /\ item_for p it /\ it <> KSkip.
Proof.
  intros HP. unfold item_of. pose proof (part_head_ok D p HP) as HH. rewrite (classify_part reg p HH).
  destruct (header_meta_part reg p HH) as (h & d & -> & H1 & H2 & H3 & (x & H4 & H5) & H6).
  cbn [bind fst snd]. unfold part_action. rewrite H1, H2. cbn [pstrip to_native bind].
  destruct HP as ((Hnl & Hb & Hs) & Hf & Ht & _). rewrite Hs.
  assert (HC : ctype_for h p).
  { unfold ctype_for, ctype_of, type_name, type_param. subst x. destruct (pt_type p) as [[t ps]|].
    - destruct H5 as (e & H5 & H5'). rewrite H5. cbn [fst snd]. split; [|easy]. apply type_ustrip. apply Ht.
    - rewrite H5. split; reflexivity. }
  unfold kind, item_for in *. destruct (pt_file p) as [f|].
  - destruct Hf as (((_ & _ & Hfs) & Hne & _ & Hamp & Hback & _) & _ & _ & Hc).
    unfold filename_of. rewrite H3. cbn [option_map]. destruct f as [|y f]; [easy|]. cbn [pnonempty pchars nonempty to_native bind].
    rewrite unescape_plain by easy. cbn [bind]. rewrite ie_plain by easy.
    assert (HTE : tenc_of h = if pt_b64 p then Some !"base64" else None).
    { unfold tenc_of. rewrite H6. now destruct (pt_b64 p). }
    exists (KFile (mkInfo (pt_name p) (y :: f) (ustrip (fst (ctype_of h))) (dget !"charset" (snd (ctype_of h)))
                          (snd (ctype_of h)) (tenc_of h)) (pt_data p)).
    split; [|split; [|easy]].
    + exists (pt_data p). split; [|reflexivity]. rewrite HTE. unfold content_of. destruct (pt_b64 p); cbn; easy.
    + eexists. split; [reflexivity|]. cbn. destruct HC as [HC1 HC2]. repeat (split; [easy|]). exact HTE.
  - destruct Hf as (_ & Hbf & _). exists (KField (pt_name p) (tenc_of h) h (pt_raw p)). split; [reflexivity|]. split; [|easy].
    exists h. split; [|easy]. unfold tenc_of. now rewrite H6, Hbf.
Qed.

(** ** Cutting the body *)
Lemma first_delim D u v : D <> [] -> no_newline D -> ~ occurs D u -> first_occ D (u ++ crlf ++ D ++ v) (u ++ crlf) v.
Proof.
  intros HDn [HD1 HD2] Hu. split; [now rewrite <- !app_assoc|]. intros u' v' Heq.
  destruct (Nat.le_gt_cases (length (u ++ crlf)) (length u')) as [?|Hlt]; [easy|exfalso].
  replace (u ++ crlf ++ D ++ v) with ((u ++ crlf) ++ D ++ v) in Heq by now rewrite <- !app_assoc.
  symmetry in Heq. destruct (app_eq_split u' _ (u ++ crlf) _ Heq ltac:(lia)) as (e & He & Heq').
  (* e is nonempty and D ++ v' = e ++ D ++ v *)
  assert (Hel : e <> []) by (intros ->; rewrite app_nil_r in He; rewrite He in Hlt; lia).
  destruct (Nat.le_gt_cases (length D) (length e)) as [Hl|Hl].
  - symmetry in Heq'. destruct (app_eq_split D _ e _ (eq_sym Heq') Hl) as (x & -> & _).
    (* u ++ crlf = u' ++ D ++ x : D within u ++ crlf, hence within u *)
    destruct x as [|a x] using rev_ind.
    + rewrite app_nil_r in He. destruct (exists_last HDn) as (D0 & z & ->).
      change crlf with ([13%N] ++ [10%N]) in He. rewrite !app_assoc in He. apply app_inj_tail in He as [_ He].
      apply HD2. rewrite <- He. apply in_or_app. right. now left.
    + clear IHx. change crlf with ([13%N] ++ [10%N]) in He. rewrite !app_assoc in He. apply app_inj_tail in He as [He _].
      destruct x as [|b x] using rev_ind.
      * rewrite app_nil_r in He. destruct (exists_last HDn) as (D0 & z & ->).
        rewrite !app_assoc in He. apply app_inj_tail in He as [_ He].
        apply HD1. rewrite <- He. apply in_or_app. right. now left.
      * rewrite !app_assoc in He. apply app_inj_tail in He as [He _]. apply Hu. exists u', x. now rewrite <- app_assoc in He.
  - (* the last character of e, a line feed, is in D *)
    destruct (exists_last Hel) as (e0 & z & ->).
    change crlf with ([13%N] ++ [10%N]) in He. rewrite !app_assoc in He. apply app_inj_tail in He as [_ <-].
    destruct (app_eq_split (e0 ++ [10%N]) _ D _ (eq_sym Heq') ltac:(lia)) as (x & -> & _).
    apply HD2. rewrite <- app_assoc. apply in_or_app. right. now left.
Qed.
Lemma trim_crlf u : trim_eol (u ++ crlf) = u.
Proof. unfold trim_eol, crlf. rewrite rev_app_distr. cbn [rev app]. apply rev_involutive. Qed.

Definition tail_piece : str := !"--" ++ crlf.
Lemma form_splits D ps : 3 <= length D -> no_newline D -> Forall (part_ok D) ps ->
  splits D (concat (map (fun p => render_part p ++ crlf ++ D) ps) ++ tail_piece)
           (map render_part ps ++ [tail_piece]).
Proof.
  intros HD HN. assert (HDn : D <> []) by (destruct D; [cbn in HD; lia|easy]).
  induction ps as [|p ps IH]; intros HF.
  - cbn [map concat app]. apply (sp_cons _ _ _ None); [easy| |constructor]. apply block_none.
    intros (u & v & H). assert (Hl : length D + length u + length v = 4).
    { apply (f_equal (@length N)) in H. rewrite !app_length in H. cbn in H. lia. }
    destruct D as [|a [|b [|c D]]]; try (cbn in HD; lia).
    destruct u as [|x u]; cbn in H.
    + injection H as E1 E2 E3 E4. subst. apply (proj1 HN). right. right. now left.
    + destruct u as [|y u]; cbn in *; [|lia]. injection H as E1 E2 E3 E4. subst. apply (proj1 HN). right. now left.
  - inversion_clear HF as [|? ? Hp HF']. specialize (IH HF'). cbn [map concat app].
    apply (sp_cons _ _ _ (Some (concat (map (fun p => render_part p ++ crlf ++ D) ps) ++ tail_piece))).
    + destruct (render_part p) eqn:E; [|easy]. now unfold render_part in E.
    + rewrite <- !app_assoc. rewrite <- (trim_crlf (render_part p)) at 2. apply block_found.
      apply first_delim; [easy|easy|]. apply Hp.
    + exact IH.
Qed.
Lemma body_splits D ps : 3 <= length D -> no_newline D -> Forall (part_ok D) ps ->
  splits D (render_form D ps) ([] :: map render_part ps ++ [tail_piece]).
Proof.
  intros HD HN HF. unfold render_form. apply (sp_cons _ _ _ (Some (concat (map (fun p => render_part p ++ crlf ++ D) ps) ++ tail_piece))).
  - destruct D; [cbn in HD; lia|easy].
  - apply (block_found D _ []). split; [easy|]. intros. cbn. lia.
  - now apply form_splits.
Qed.

(** ** The run over a form *)
Section Run.
  Context (reg : registry) (name2cp : str -> option N) (mk_temp : str -> res unit) (st : mset) (m : Z) (c : codec).
  Context (Hreg : reg (ms_charset st) = Some c) (Hc : codec_ok c) (Hmk : forall s, exists x, mk_temp s = Ok x).

  Definition within (ps : list part) : Prop :=
    match ms_dnum st with Some n => (Z.of_nat (field_count ps) <= n)%Z | None => True end /\
    match ms_dmem st with Some n => (Z.of_nat (field_bytes ps) <= n)%Z | None => True end.
  Definition holds (u : ust) (ps : list part) : Prop :=
    (forall k, Forall2 entry_for (getl k (u_post u)) (fields_named k ps)) /\
    (forall k, Forall2 file_for (getl k (u_files (u_finish u))) (files_named k ps)) /\
    u_bytes u = Z.of_nat (field_bytes ps) /\ u_keys u = Z.of_nat (field_count ps).

  Lemma holds_finish u ps : holds u ps -> holds (u_finish u) ps.
  Proof.
    intros (H1 & H2 & H3 & H4).
    assert (HF : u_finish (u_finish u) = u_finish u) by (unfold u_finish; destruct (u_pend u) as [[n f]|] eqn:E; [easy|now rewrite E]).
    assert (HP : u_post (u_finish u) = u_post u /\ u_bytes (u_finish u) = u_bytes u /\ u_keys (u_finish u) = u_keys u)
      by (unfold u_finish; now destruct (u_pend u) as [[n f]|]).
    destruct HP as (P1 & P2 & P3). unfold holds. now rewrite HF, P1, P2, P3.
  Qed.

  Lemma post_append_ascii name e d : ascii_only name = true ->
    exists d', post_append reg (ms_charset st) name e d = Ok d' /\
      forall k, getl k d' = if seqb k name then getl k d ++ [e] else getl k d.
  Proof.
    intros Ha. unfold post_append, bytes_to_text, encode_bytes_replace. rewrite Hreg, Ha.
    rewrite (cok_erep c Hc name name (cok_enc_ascii c Hc name Ha)). cbn [bind]. rewrite Ha.
    rewrite (cok_erep c Hc name name (cok_enc_ascii c Hc name Ha)). cbn [bind].
    assert (HK : key_of (PB name) = name) by (unfold key_of; now rewrite Ha). rewrite HK.
    destruct (dget name d) as [l|] eqn:EG.
    - assert (HM : dmem name d = true) by (unfold dmem; now rewrite EG). rewrite HM. cbn [bind]. rewrite EG.
      eexists. split; [reflexivity|]. intros k. unfold getl. rewrite dget_dset.
      destruct (seqb k name) eqn:E; [apply seqb_eq in E; subst k; now rewrite EG|easy].
    - assert (HM : dmem name d = false) by (unfold dmem; now rewrite EG). rewrite HM. cbn [bind].
      rewrite dget_dset, seqb_refl. eexists. split; [reflexivity|]. intros k. unfold getl. rewrite !dget_dset.
      destruct (seqb k name) eqn:E; [apply seqb_eq in E; subst k; now rewrite EG|easy].
  Qed.

  Lemma fields_named_app k ps p : fields_named k (ps ++ [p]) =
    fields_named k ps ++ (if is_field p && seqb k (pt_name p) then [p] else []).
  Proof. unfold fields_named, is_field. rewrite filter_app. cbn. destruct (pt_file p); cbn; now destruct (seqb k (pt_name p)). Qed.
  Lemma files_named_app k ps p : files_named k (ps ++ [p]) =
    files_named k ps ++ (if negb (is_field p) && seqb k (pt_name p) then [p] else []).
  Proof. unfold files_named, is_field. rewrite filter_app. cbn. destruct (pt_file p); cbn; now destruct (seqb k (pt_name p)). Qed.
  Lemma field_bytes_app ps p : field_bytes (ps ++ [p]) =
    field_bytes ps + (if is_field p then length (pt_raw p) + length (pt_name p) + 2 else 0).
  Proof.
    unfold field_bytes. rewrite filter_app, map_app, list_sum_app. f_equal. cbn. destruct (is_field p); cbn; lia.
  Qed.
  Lemma field_count_app ps p : field_count (ps ++ [p]) = field_count ps + (if is_field p then 1 else 0).
  Proof. unfold field_count. rewrite filter_app, app_length. cbn. now destruct (is_field p). Qed.

  Lemma set_name_plain f : ~ In 47%N f -> length f <= 255 -> set_name f = f.
  Proof.
    intros H Hl. unfold set_name, basename. apply rfindc_None in H. change psep with 47%N. rewrite H.
    now replace (Nat.ltb 255 (length f)) with false by lia.
  Qed.

  Lemma step_part D p it u ps : part_ok D p -> item_for p it -> within (ps ++ [p]) -> holds u ps ->
    exists u', u_step reg mk_temp st m it u = Ok u' /\ holds u' (ps ++ [p]).
  Proof.
    intros HP HI (HW1 & HW2) HH%holds_finish. unfold u_step. set (u1 := u_finish u) in *.
    assert (HF1 : u_finish u1 = u1).
    { unfold u1, u_finish. destruct (u_pend u) as [[n f]|] eqn:E; [easy|now rewrite E]. }
    destruct HH as (H1 & H2 & H3 & H4). rewrite HF1 in H2.
    rewrite field_bytes_app in HW2. rewrite field_count_app in HW1. unfold item_for in HI.
    destruct HP as (_ & Hf & _). unfold holds.
    destruct (pt_file p) as [f|] eqn:EF.
    - destruct HI as (i & -> & Hi1 & Hi2 & Hi3 & Hi4 & Hi5 & Hi6). unfold u_file.
      destruct Hf as ((_ & _ & Hfl & _ & _ & Hsl) & Hnn & Hdn & _).
      assert (HT : exists x, (if Z.ltb m (Z.of_nat (u_total u1 + length (pt_data p))) then mk_temp (temp_suffix (fi_name i)) else Ok tt) = Ok x).
      { destruct (Z.ltb _ _); [apply Hmk|eauto]. }
      destruct HT as [x ->]. cbn [bind]. eexists. split; [reflexivity|]. cbn [u_post u_files u_bytes u_keys].
      assert (HisF : is_field p = false) by (unfold is_field; now rewrite EF).
      rewrite field_bytes_app, field_count_app, HisF, !Nat.add_0_r. split; [|split; [|split; easy]].
      + intros k. rewrite fields_named_app, HisF. cbn [andb]. rewrite app_nil_r. apply H1.
      + intros k. rewrite files_named_app, HisF. cbn [negb andb]. unfold u_finish. cbn [u_pend u_files].
        rewrite Hi1. destruct (pt_name p) as [|y nm] eqn:EN; [easy|]. cbn [nonempty andb].
        assert (HSz : Nat.eqb (uf_size (upload m (u_total u1 + length (pt_data p)) i (pt_data p))) 0 = false).
        { cbn. destruct (pt_data p); easy. }
        rewrite HSz. cbn [negb]. unfold files_append, getl. rewrite dget_dset. destruct (seqb k (y :: nm)) eqn:E.
        * apply seqb_eq in E. subst k. apply Forall2_app; [apply (H2 (y :: nm))|]. constructor; [|constructor].
          unfold file_for, upload. cbn. rewrite Hi2, set_name_plain by easy. rewrite EF. easy.
        * rewrite app_nil_r. apply H2.
    - destruct HI as (h & -> & HC1 & HC2). destruct Hf as (Hasc & Hb64 & Hraw).
      assert (HisF : is_field p = true) by (unfold is_field; now rewrite EF).
      rewrite HisF in HW1, HW2. unfold u_field. rewrite H3, H4.
      assert (E1 : match ms_dnum st with Some n => Z.ltb n (Z.of_nat (field_count ps) + 1) | None => false end = false).
      { destruct (ms_dnum st); [lia|easy]. }
      rewrite E1.
      assert (E2 : match ms_dmem st with
                   | Some n => let size := (n - Z.of_nat (field_bytes ps))%Z in
                       if Z.ltb size 0 then Err AssertionError else @Ok str (firstn (Z.to_nat size) (pt_raw p))
                   | None => @Ok str (pt_raw p)
                   end = @Ok str (pt_raw p)).
      { destruct (ms_dmem st) as [n|]; [|easy]. cbv zeta. replace (Z.ltb (n - Z.of_nat (field_bytes ps)) 0) with false by lia.
        now rewrite firstn_all2 by lia. }
      match goal with |- context [@bind str ust ?x _] => replace x with (@Ok str (pt_raw p)) end. cbn [bind is_b64enc].
      assert (E3 : match ms_dmem st with
                   | Some n => Z.ltb n (Z.of_nat (field_bytes ps) + zlen (pt_raw p) + (zlen (pt_name p) + 2))
                   | None => false end = false).
      { destruct (ms_dmem st); [unfold zlen; lia|easy]. }
      rewrite E3.
      match goal with |- context [post_append _ _ _ ?e _] => set (en := e);
        destruct (post_append_ascii (pt_name p) en (u_post u1) Hasc) as (d' & -> & Hd') end.
      cbn [bind]. eexists. split; [reflexivity|]. cbn [u_post u_files u_bytes u_keys].
      rewrite field_bytes_app, field_count_app, HisF. split; [|split; [|split; unfold zlen; lia]].
      + intros k. rewrite fields_named_app, HisF. cbn [andb]. rewrite Hd'. destruct (seqb k (pt_name p)).
        * apply Forall2_app; [apply H1|]. constructor; [|constructor]. unfold entry_for, en. cbn. easy.
        * rewrite app_nil_r. apply H1.
      + intros k. rewrite files_named_app, HisF. cbn [negb andb]. rewrite app_nil_r. unfold u_finish. cbn [u_pend u_files].
        assert (HPe : u_pend u1 = None) by (unfold u1, u_finish; destruct (u_pend u) as [[n f]|] eqn:E; easy).
        rewrite HPe. cbn. apply H2.
  Qed.
End Run.

Section Whole.
  Context (reg : registry) (name2cp : str -> option N) (mk_temp : str -> res unit) (st : mset) (m : Z) (c : codec).
  Context (Hreg : reg (ms_charset st) = Some c) (Hc : codec_ok c) (Hmk : forall s, exists x, mk_temp s = Ok x).

  Lemma run_parts D : forall ps done its u, Forall (part_ok D) ps -> Forall2 item_for ps its ->
    within st (done ++ ps) -> holds u done ->
    exists u', u_run reg mk_temp st m its u = Ok u' /\ holds u' (done ++ ps).
  Proof.
    induction ps as [|p ps IH]; intros done its u HF HI HW HH.
    - inversion HI; subst. rewrite app_nil_r. now exists u.
    - inversion_clear HF as [|? ? Hp HF']. inversion HI as [|? it ? its' Hit HI' E1 E2]; subst.
      assert (HW1 : within st (done ++ [p])).
      { clear -HW. destruct HW as [H1 H2]. unfold within, field_count, field_bytes in *.
        rewrite !filter_app in *. cbn [filter] in *. rewrite !app_length in *. rewrite !map_app, !list_sum_app in *.
        destruct (is_field p); cbn [length map list_sum fold_right] in *;
          (split; [destruct (ms_dnum st); [lia|easy]|destruct (ms_dmem st); [unfold list_sum in *; cbn in *; lia|easy]]). }
      destruct (step_part reg name2cp mk_temp st m c Hreg Hc Hmk D p it u done Hp Hit HW1 HH) as (u1 & E & HH1).
      cbn [u_run]. rewrite E. cbn [bind]. replace (done ++ p :: ps) with ((done ++ [p]) ++ ps) in * by now rewrite <- app_assoc.
      now apply IH.
  Qed.

  Lemma u_run_app its1 its2 u : u_run reg mk_temp st m (its1 ++ its2) u =
    let* u' := u_run reg mk_temp st m its1 u in u_run reg mk_temp st m its2 u'.
  Proof.
    revert u. induction its1 as [|it its1 IH]; intros u; [easy|]. cbn [app u_run].
    destruct (u_step reg mk_temp st m it u) as [u'|e]; [apply IH|easy].
  Qed.

  Lemma querydict_none mut : match ms_dnum st with Some n => (0 <= n)%Z | None => True end -> exists qd, querydict reg (Some (ms_query st)) None mut = Ok qd.
  Proof.
    intros Hn. unfold querydict, query_text. cbn [pnonempty]. cbn [ms_query qs_charset]. unfold decode. rewrite Hreg.
    rewrite (cok_dec_ascii c Hc [] eq_refl). cbn [bind].
    assert (HQ : exists l, limited_parse_qsl reg [] true (ms_charset st) (qs_limit (ms_query st)) = Ok l /\ l = []).
    { exists []. split; [|easy]. unfold limited_parse_qsl, qsl_pairs. cbn [ms_query qs_limit].
      destruct (ms_dnum st) as [z|]; [|reflexivity]. destruct (Z.eqb_spec z 0); [reflexivity|].
      assert (E : fields_split (Some (Z.to_nat z)) [] = [[]]) by (destruct (Z.to_nat z); reflexivity). rewrite E.
      cbn [length]. replace (Z.ltb z (Z.of_nat 1)) with false by lia. reflexivity. }
    destruct HQ as (l & -> & ->). cbn. eauto.
  Qed.

  Theorem parse_form D ps s csize len fuel :
    3 <= length D -> no_newline D -> Forall (part_ok D) ps -> within st ps ->
    ms_fmem st = Some m -> (0 <= m)%Z ->
    src_bytes s = render_form D ps -> src_error s = None -> 0 < csize -> len <> 0%Z -> enough s <= fuel ->
    exists post files, parse_src reg name2cp mk_temp st D fuel csize len [HConv new_conv] s = (Ok (post, files), []) /\
      (forall k, Forall2 entry_for (getl k post) (fields_named k ps)) /\
      (forall k, Forall2 file_for (getl k files) (files_named k ps)).
  Proof.
    intros HD HN HF HW Hst Hm Hs He Hcs Hl Hf.
    assert (HDok : Dok D).
    { split; [|easy]. destruct D as [|x D]; [cbn in HD; lia|]. cbn. destruct HN as [H1 H2].
      split; intros ->; [apply H1|apply H2]; now left. }
    assert (HIt : exists its, Forall2 (item_of reg name2cp) (map render_part ps) its /\ Forall2 item_for ps its /\
                              Forall2 small (map render_part ps) its).
    { clear -HF. induction HF as [|p ps Hp HF IH]; [exists []; split; [constructor|split; constructor]|]. destruct IH as (its & I1 & I2 & I3).
      destruct (item_part reg name2cp p D Hp) as (it & J1 & J2 & J3). exists (it :: its). cbn [map].
      split; [now constructor|]. split; [now constructor|]. constructor; [|easy]. now intros ->. }
    destruct HIt as (its & I1 & I2 & I3).
    assert (Hmk' : forall x, mk_temp x <> Err StopFutureHandlers) by (intros x; now destruct (Hmk x) as [y ->]).
    destruct (querydict_none true) as [qd Hqd].
    { destruct HW as [HW _]. destruct (ms_dnum st); [lia|easy]. }
    pose proof (parse_src_det reg name2cp mk_temp st D HDok s csize len m qd fuel
                  ([] :: map render_part ps ++ [tail_piece]) (KSkip :: its ++ [KSkip])
                  Hcs He Hqd Hl Hf Hst Hm Hmk') as HR.
    rewrite Hs in HR. specialize (HR (body_splits D ps HD HN HF)).
    assert (HI : Forall2 (item_of reg name2cp) ([] :: map render_part ps ++ [tail_piece]) (KSkip :: its ++ [KSkip])).
    { constructor; [reflexivity|]. apply Forall2_app; [easy|]. constructor; [reflexivity|constructor]. }
    assert (HSm : Forall2 small ([] :: map render_part ps ++ [tail_piece]) (KSkip :: its ++ [KSkip])).
    { constructor; [apply small_short; unfold head_size; cbn; lia|]. apply Forall2_app; [easy|].
      constructor; [apply small_short; unfold head_size; cbn; lia|constructor]. }
    specialize (HR HI HSm). cbn [u_run u_step u_finish u_start u_pend bind] in HR.
    rewrite u_run_app in HR.
    assert (HH0 : holds u_start []).
    { unfold holds. cbn. repeat (split; [intros; constructor|]). split; reflexivity. }
    destruct (run_parts D ps [] its u_start HF I2 HW HH0) as (u & EU & HH).
    fold u_start in HR. rewrite EU in HR. cbn [bind u_run u_step app] in HR.
    apply holds_finish in HH. destruct HH as (H1 & H2 & _). cbn [app] in *.
    exists (u_post (u_finish u)), (u_files (u_finish u)). split; [exact HR|]. split; [exact H1|].
    assert (HFF : u_finish (u_finish u) = u_finish u) by (unfold u_finish; destruct (u_pend u) as [[n f]|] eqn:E; [easy|now rewrite E]).
    rewrite HFF in H2. exact H2.
  Qed.
End Whole.
