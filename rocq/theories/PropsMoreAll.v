(** * The refutations of C25, C37, C52 and C112 for all inputs *)
From Coq Require Import ZifyBool ZifyN ZifyNat.
From Verif Require Import Py PyFacts PyDict Spec StreamModel StreamSpec CodecModel QueryModel Base64Model Base64Facts HeaderModel HeaderSpec
  BoundaryModel BoundarySpec BoundaryFacts UploadModel MultipartModel MultipartSem MultipartSpec MultipartDet FormSpec FormFacts
  MultipartInv BodySpec HeadLineFacts ItemFacts BodyFacts PropsData PropsPart PropsMultipart PartErrors RequestModel.
From Verif Require Import StreamFacts HeadSpec HeadModel HeadFacts PropsHead RequestSpec BodyRun HeaderRun PropsRequest PropsBody PropsSame.

(** ** C25: the limit cuts the text of a base64 field before it is decoded *)
Lemma b64_cut_bad : forall d k, bytes_only d = true -> k < length (b64encode d) -> k mod 4 <> 0 ->
  b64decode (firstn k (b64encode d)) = Err TypeError.
Proof.
  assert (G : forall d k, bytes_only d = true -> k < length (b64encode d) -> k mod 4 <> 0 ->
    snd (a2b_loop (firstn k (b64encode d)) b64_init) <> 0%N).
  { induction d as [|a|a b|a b c t IH] using list_ind3; intros k Hb Hk Hm.
    - cbn in Hk. lia.
    - cbn in Hb. apply andb_true_iff in Hb as [Ha _]. apply N.ltb_lt in Ha.
      destruct (b64val_char (a / 4)) as [V1 P1]; [lia|]. destruct (b64val_char (a mod 4 * 16)) as [V2 P2]; [lia|].
      cbn [b64encode] in *. destruct k as [|[|[|[|k]]]]; [now cbn in Hm| | | |cbn in Hk; lia]; cbn [firstn];
        rewrite ?(a2b_val _ (a / 4)) by easy; change (b64_shift (a / 4) b64_init) with (@nil N, mkB64 1 (a / 4) 6); cbv iota beta.
      + easy.
      + rewrite (a2b_val _ (a mod 4 * 16)) by easy. set (x := (a / 4)%N). set (y := (a mod 4 * 16)%N).
        change (b64_shift y (mkB64 1 x 6)) with ([((x * 64 + y) / 16) mod 256]%N, mkB64 2 ((x * 64 + y) mod 16)%N 4). easy.
      + rewrite (a2b_val _ (a mod 4 * 16)) by easy. set (x := (a / 4)%N). set (y := (a mod 4 * 16)%N).
        change (b64_shift y (mkB64 1 x 6)) with ([((x * 64 + y) / 16) mod 256]%N, mkB64 2 ((x * 64 + y) mod 16)%N 4). easy.
    - cbn in Hb. apply andb_true_iff in Hb as [Ha Hb]. apply andb_true_iff in Hb as [Hb _]. apply N.ltb_lt in Ha, Hb.
      destruct (b64val_char (a / 4)) as [V1 P1]; [lia|]. destruct (b64val_char (a mod 4 * 16 + b / 16)) as [V2 P2]; [lia|].
      destruct (b64val_char (b mod 16 * 4)) as [V3 P3]; [lia|].
      cbn [b64encode] in *. destruct k as [|[|[|[|k]]]]; [now cbn in Hm| | | |cbn in Hk; lia]; cbn [firstn];
        rewrite ?(a2b_val _ (a / 4)) by easy; change (b64_shift (a / 4) b64_init) with (@nil N, mkB64 1 (a / 4) 6); cbv iota beta.
      + easy.
      + rewrite (a2b_val _ (a mod 4 * 16 + b / 16)) by easy. set (x := (a / 4)%N). set (y := (a mod 4 * 16 + b / 16)%N).
        change (b64_shift y (mkB64 1 x 6)) with ([((x * 64 + y) / 16) mod 256]%N, mkB64 2 ((x * 64 + y) mod 16)%N 4). easy.
      + rewrite (a2b_val _ (a mod 4 * 16 + b / 16)) by easy. set (x := (a / 4)%N). set (y := (a mod 4 * 16 + b / 16)%N).
        change (b64_shift y (mkB64 1 x 6)) with ([((x * 64 + y) / 16) mod 256]%N, mkB64 2 ((x * 64 + y) mod 16)%N 4). cbv iota beta.
        rewrite (a2b_val _ (b mod 16 * 4)) by easy. set (w := ((x * 64 + y) mod 16)%N). set (z := (b mod 16 * 4)%N).
        change (b64_shift z (mkB64 2 w 4)) with ([((w * 64 + z) / 4) mod 256]%N, mkB64 3 ((w * 64 + z) mod 4)%N 2). easy.
    - cbn in Hb. apply andb_true_iff in Hb as [Ha Hb]. apply andb_true_iff in Hb as [Hb Hc].
      apply andb_true_iff in Hc as [Hc Ht]. apply N.ltb_lt in Ha, Hb, Hc. cbn [b64encode] in *.
      destruct (b64val_char (a / 4)) as [V1 P1]; [lia|]. destruct (b64val_char (a mod 4 * 16 + b / 16)) as [V2 P2]; [lia|].
      destruct (b64val_char (b mod 16 * 4 + c / 64)) as [V3 P3]; [lia|].
      destruct k as [|[|[|[|k]]]]; [now cbn in Hm| | | |].
      + cbn [firstn]. rewrite (a2b_val _ (a / 4)) by easy. change (b64_shift (a / 4) b64_init) with (@nil N, mkB64 1 (a / 4) 6). easy.
      + cbn [firstn]. rewrite (a2b_val _ (a / 4)) by easy. change (b64_shift (a / 4) b64_init) with (@nil N, mkB64 1 (a / 4) 6). cbv iota beta.
        rewrite (a2b_val _ (a mod 4 * 16 + b / 16)) by easy. set (x := (a / 4)%N). set (y := (a mod 4 * 16 + b / 16)%N).
        change (b64_shift y (mkB64 1 x 6)) with ([((x * 64 + y) / 16) mod 256]%N, mkB64 2 ((x * 64 + y) mod 16)%N 4). easy.
      + cbn [firstn]. rewrite (a2b_val _ (a / 4)) by easy. change (b64_shift (a / 4) b64_init) with (@nil N, mkB64 1 (a / 4) 6). cbv iota beta.
        rewrite (a2b_val _ (a mod 4 * 16 + b / 16)) by easy. set (x := (a / 4)%N). set (y := (a mod 4 * 16 + b / 16)%N).
        change (b64_shift y (mkB64 1 x 6)) with ([((x * 64 + y) / 16) mod 256]%N, mkB64 2 ((x * 64 + y) mod 16)%N 4). cbv iota beta.
        rewrite (a2b_val _ (b mod 16 * 4 + c / 64)) by easy. set (w := ((x * 64 + y) mod 16)%N). set (z := (b mod 16 * 4 + c / 64)%N).
        change (b64_shift z (mkB64 2 w 4)) with ([((w * 64 + z) / 4) mod 256]%N, mkB64 3 ((w * 64 + z) mod 4)%N 2). easy.
      + cbn [firstn]. rewrite a2b_quad by lia. specialize (IH k Ht ltac:(cbn [length] in Hk; lia)).
        destruct (a2b_loop (firstn k (b64encode t)) b64_init) as [rest lb]. cbn [snd] in *. apply IH. lia. }
  intros d k Hb Hk Hm. specialize (G d k Hb Hk Hm). unfold b64decode. destruct (a2b_loop _ _) as [out lb]. cbn in G.
  replace (N.eqb lb 0) with false by lia. reflexivity.
Qed.

Theorem C25_base64_field_all_refuted :
  forall reg name2cp mk_temp st m D pre p rest n s csize len fuel,
  settings_ok reg st m -> can_create mk_temp -> delimiter D -> pre_ok D pre ->
  ~ occurs D (render_part p) -> head_ok p -> pt_file p = None -> pt_b64 p = true ->
  bytes_only (pt_data p) = true -> pt_raw p = b64encode (pt_data p) ->
  match ms_dnum st with Some n => (1 <= n)%Z | None => True end ->
  ms_dmem st = Some n -> (0 <= n < Z.of_nat (length (pt_raw p)))%Z -> (n mod 4 <> 0)%Z ->
  arrives s (upto D pre [] ++ render_part p ++ crlf ++ D ++ rest) csize len fuel ->
  fst (parse_src reg name2cp mk_temp st D fuel csize len default_handler s) = Err TypeError.
Proof.
  intros reg name2cp mk_temp st m D pre p rest n s csize len fuel HS Hmk [HD HN] HP HO HH Hf Hb Hd Hr Hk Hn Hn1 Hn2 (A1 & A2 & A3 & A4 & A5).
  destruct (settings_qd reg st m HS) as [qd Hq]. destruct HS as (_ & Hst & Hm & _).
  assert (A5' : enough s <= fuel) by (unfold enough; now rewrite A1).
  apply (first_error reg name2cp mk_temp st m D HD HN Hmk Hst Hm s csize len fuel qd pre p rest TypeError HP HO Hq A1 A2 A3 A4 A5').
  intros p1 o Habs HX. destruct (part_class reg name2cp p HH) as (h & E1 & E2 & _).
  unfold step in HX. rewrite E1 in HX.
  destruct (finish_abs m p1 u_start Habs) as (p2 & EF & HA2 & _). rewrite EF, (E2 Hf), Hb in HX.
  destruct HA2 as (_ & _ & HB & HK & _). cbn in HB, HK. subst o. unfold field_step. rewrite HB, HK, Hn.
  replace (match ms_dnum st with Some n => Z.ltb n (0 + 1) | None => false end) with false by (destruct (ms_dnum st); [lia|easy]).
  cbv zeta. replace (Z.ltb (n - 0) 0) with false by lia. cbn [bind is_b64enc]. change (seqb !"base64" !"base64") with true. cbv iota.
  rewrite Hr, b64_cut_bad; [reflexivity|exact Hd|rewrite <- Hr; lia|lia].
Qed.
Print Assumptions C25_base64_field_all_refuted.
Definition ex_b64field : part := mkPart !"a" None None true !"YWJjZA==" !"abcd".
Example C25_base64_field_all_case :
  head_ok ex_b64field /\ pt_raw ex_b64field = b64encode (pt_data ex_b64field) /\
  ex_parse (ex_st (Some 6%Z) None) (render_form !"--X" [ex_b64field]) = Err TypeError /\
  ex_parse (ex_st (Some 8%Z) None) (render_form !"--X" [ex_b64field]) = Err RequestDataTooBig.
Proof. split; [quot|]. repeat split; vm_compute; reflexivity. Qed.

(** ** C37: a file called '..' keeps that name, whatever else the form contains *)
Theorem C37_dotdot_all_refuted :
  forall reg name2cp mk_temp st m D ps p s csize len fuel,
  settings_ok reg st m -> can_create mk_temp -> delimiter D -> Forall (part_ok D) ps -> within st ps ->
  In p ps -> pt_file p = Some !".." -> arrives s (render_form D ps) csize len fuel ->
  exists post files f, fst (parse_src reg name2cp mk_temp st D fuel csize len default_handler s) = Ok (post, files) /\
    In f (getl (pt_name p) files) /\ uf_name f = !".." /\ uf_content f = pt_data p.
Proof.
  intros reg name2cp mk_temp st m D ps p s csize len fuel HS Hmk HD HP HW Hin Hf HA.
  destruct (C22_form_roundtrip_partial reg name2cp mk_temp st m D ps s csize len fuel HS Hmk HD HP HW HA) as (post & files & E & _ & H2).
  exists post, files. specialize (H2 (pt_name p)).
  assert (Hp : In p (files_named (pt_name p) ps)).
  { unfold files_named. apply filter_In. split; [exact Hin|]. rewrite Hf. apply seqb_refl. }
  revert Hp. induction H2 as [|f q fs qs Hq HF IH]; intros [].
  - subst q. exists f. split; [exact E|]. split; [now left|]. destruct Hq as (Q1 & _ & Q2 & _). rewrite Hf in Q2. injection Q2 as Q2. now split.
  - destruct IH as (f' & H1 & H3 & H4); [assumption|]. exists f'. split; [exact E|]. split; [now right|exact H4].
Qed.
Print Assumptions C37_dotdot_all_refuted.
Definition ex_dots : part := mkPart !"f" (Some !"..") None false !"data" !"data".
Example C37_dotdot_all_case : Forall (part_ok !"--X") [ex_dots] /\ within ex_ms [ex_dots] /\ In ex_dots [ex_dots] /\ pt_file ex_dots = Some !"..".
Proof.
  split; [|split; [split; vm_compute; congruence|split; [now left|reflexivity]]].
  assert (HO : ~ occurs !"--X" (render_part ex_dots)) by now apply find_None.
  repeat constructor; try exact HO; quot.
Qed.

(** ** C52: once the encoding is set to one the interpreter does not know, parse_request_body()
    before the header is a LookupError, for every request and after every history *)
Theorem C52_unknown_charset_all_refuted :
  forall reg n2 mk st s r w0 since c, request_init reg st s = Ok r -> current reg n2 mk st r w0 ->
    Forall (fun o => no_header o = true) since -> reg c = None ->
    let w := after reg n2 mk (since ++ [OEncoding c]) w0 in
    fst (perform reg n2 mk OParseBody w) = Err LookupError.
Proof.
  intros reg n2 mk st s r w0 since c Hi Hc Hs Hn. cbv zeta.
  assert (HF : Forall (fun o => no_header o = true) (since ++ [OEncoding c])) by (apply Forall_app; split; [exact Hs|now constructor]).
  destruct (C52_header_first_partial reg n2 mk st s r w0 (since ++ [OEncoding c]) Hi Hc HF) as [_ ->].
  assert (EC : qs_charset (s_query (fst (after reg n2 mk (since ++ [OEncoding c]) w0))) = c).
  { clear -c. revert w0. induction since as [|o os IH]; intros w0; cbn [app after]; [|apply IH]. now destruct w0 as [st1 r1]. }
  unfold querydict, query_text. cbn [pnonempty]. unfold decode. rewrite EC, Hn. reflexivity.
Qed.
Print Assumptions C52_unknown_charset_all_refuted.
Example C52_unknown_charset_all_case :
  (exists r, request_init ex_reg ex_set (req [!"GET / HTTP/1.1"; !"Host: a"] []) = Ok r /\ current ex_reg no_cp ok_temp ex_set r (ex_set, r)) /\
  ex_reg !"klingon" = None /\ Forall (fun o => no_header o = true) [ORead (Some 3%Z)].
Proof. split; [eexists; split; [vm_compute; reflexivity|now left]|]. split; [reflexivity|repeat constructor]. Qed.

(** ** C112: one more line with anything before its colon does not make a request fail, and what stands
    there, line breaks other than CRLF and blanks included, is the name of a header *)
Definition with_line (w : wire) (l n v : str) : wire := mkWire (w_line w) (w_lines w ++ [l]) (w_fields w ++ [(n, v)]) (w_body w).
Lemma values_app n a b : values_named n (a ++ b) = values_named n a ++ values_named n b.
Proof. induction a as [|[m v] a IH]; [reflexivity|]. cbn. destruct (seqb n m); [cbn; now rewrite IH|exact IH]. Qed.
Theorem C112_any_name_refuted :
  forall reg st s s' r r' w n raw st1 r1, request_init reg st s = Ok r -> request_init reg st s' = Ok r' -> max_ok (s_hdr st) -> delivers s w ->
    ~ In n [!"Host"; !"Content-Type"] -> ~ In 58%N n -> ascii_text n -> ascii_text raw -> ~ occurs crlf (n ++ [58%N] ++ raw) ->
    src_bytes s' = wire_bytes (with_line w (n ++ [58%N] ++ raw) n (strip raw)) -> src_error s' = None ->
    parse_request_header reg (st, r) = (Ok tt, (st1, r1)) ->
    exists r1' h h', parse_request_header reg (st, r') = (Ok tt, (st1, r1')) /\ headers_are r1 h /\ headers_are r1' h' /\
      getlist n h' = getlist n h ++ [strip raw] /\ forall m, m <> n -> getlist m h' = getlist m h.
Proof.
  intros reg st s s' r r' w n raw st1 r1 Hi Hi' Hm Hw Hn H58 An Ar Hc Hb He HP.
  set (l := n ++ [58%N] ++ raw) in *. set (w' := with_line w l n (strip raw)) in *.
  assert (Hw' : delivers s' w').
  { destruct Hw as (W1 & W2 & (O1 & O2 & O3 & O4)). split; [exact He|]. split; [exact Hb|]. split; [exact O1|]. split; [|split].
    - apply Forall_app. split; [exact O2|]. constructor; [|constructor]. split; [|exact Hc]. unfold l. now destruct n.
    - apply Forall2_app; [exact O3|]. constructor; [|constructor]. split; [now exists raw|]. split; [exact An|]. intros c Hc'. apply Ar. now apply strip_In in Hc'.
    - cbn. now destruct (w_lines w). }
  assert (HV : forall m, m <> n -> values_named m (w_fields w') = values_named m (w_fields w)).
  { intros m Hmn. cbn [w' with_line w_fields]. rewrite values_app. cbn. apply seqb_neq in Hmn. rewrite Hmn. apply app_nil_r. }
  destruct (parse_wire reg st s r w Hi Hw Hm) as (q & s1 & d & Er & _ & _ & Hd & HP1).
  destruct (parse_wire reg st s' r' w' Hi' Hw' Hm) as (q' & t1 & d' & Er' & _ & _ & Hd' & HP2).
  assert (q' = q) as ->. { rewrite init_eq in Hi, Hi'. destruct (querydict reg (Some (s_query st)) None true); [|easy].
    apply (f_equal (fun x => match x with Ok r => r_get r | Err _ => None end)) in Hi, Hi'. subst r r'. cbn in Hi, Hi'. congruence. }
  assert (HD : forall m, m <> n -> dget m d' = dget m d) by (intros m Hmn; rewrite Hd, Hd', HV by exact Hmn; reflexivity).
  assert (Nh : !"Host" <> n) by (intros <-; apply Hn; now left). assert (Nc : !"Content-Type" <> n) by (intros <-; apply Hn; now right; left).
  destruct (parse_request_line (w_line w)) as [rl|e] eqn:EL.
  2:{ rewrite HP1 in HP. discriminate HP. }
  assert (HE : exists r1', parse_request_header reg (st, r') = (Ok tt, (st1, r1'))).
  { rewrite HP1 in HP. rewrite HP2. change (w_line w') with (w_line w). rewrite EL. cbv zeta in *. rewrite populate_eq in HP |- *.
    unfold pick_host, ctype_of, header in *. rewrite (HD _ Nh).
    destruct (nonempty (rl_domain rl)).
    - rewrite (HD _ Nc). destruct (match option_map last_of (dget !"Content-Type" d) with Some v => _ | None => _ end) as [[c ch]|e] eqn:EC; [|discriminate HP].
      cbv zeta in *. cbn [r_meta set_flags set_stream fresh] in *. destruct (query_of _ _ _); [|discriminate HP]. injection HP as <- _.
      eexists. reflexivity.
    - destruct (option_map last_of (dget !"Host" d)) as [v|]; [|discriminate HP].
      rewrite !dget_ddel_other in * by discriminate. rewrite (HD _ Nc).
      destruct (match option_map last_of (dget !"Content-Type" d) with Some v => _ | None => _ end) as [[c ch]|e] eqn:EC; [|discriminate HP].
      cbv zeta in *. cbn [r_meta set_flags set_stream fresh] in *. destruct (query_of _ _ _); [|discriminate HP]. injection HP as <- _.
      eexists. reflexivity. }
  destruct HE as [r1' HE].
  destruct (C13_host_source reg st s r w rl Hi Hw Hm EL) as [_ K1]. destruct (K1 _ _ HP) as (h & a & Q1 & _ & _ & Q2 & Q3).
  destruct (C13_host_source reg st s' r' w' rl Hi' Hw' Hm EL) as [_ K2]. destruct (K2 _ _ HE) as (h' & a' & R1 & _ & _ & R2 & R3).
  exists r1', h, h'. split; [exact HE|]. split; [exact Q1|]. split; [exact R1|]. split.
  - rewrite Q2, R2 by congruence. cbn [w' with_line w_fields]. rewrite values_app. cbn. now rewrite seqb_refl.
  - intros m Hmn. destruct (list_eq_dec N.eq_dec m !"Host") as [->|Hh].
    + rewrite Q3, R3, HV by exact Hmn. reflexivity.
    + rewrite Q2, R2, HV by assumption. reflexivity.
Qed.
Print Assumptions C112_any_name_refuted.
Example C112_any_name_case :
  let n := !"X" ++ [LF] ++ !"Y " in let raw := !" 1" ++ [CR] ++ !"2" in
  let w := mkWire !"GET / HTTP/1.1" [!"Host: a"] [(!"Host", !"a")] [] in
  ~ In n [!"Host"; !"Content-Type"] /\ ~ In 58%N n /\ ~ occurs crlf (n ++ [58%N] ++ raw) /\
  src_bytes (req [!"GET / HTTP/1.1"; !"Host: a"; n ++ [58%N] ++ raw] []) = wire_bytes (with_line w (n ++ [58%N] ++ raw) n (strip raw)) /\
  strip raw = !"1" ++ [CR] ++ !"2".
Proof.
  cbv zeta. split; [intros H; cbn in H; repeat destruct H as [H|H]; discriminate H || easy|].
  split; [intros H; cbn in H; repeat destruct H as [H|H]; discriminate H || easy|].
  split; [now apply find_None|]. split; vm_compute; reflexivity.
Qed.
