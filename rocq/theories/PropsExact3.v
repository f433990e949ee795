(** * C22, C43, continued: the failure of C22 for all forms, the limit 0 for all bodies *)
From Coq Require Import ZifyBool ZifyN ZifyNat.
From Verif Require Import Py PyFacts PyDict Spec StreamModel StreamSpec CodecModel QueryModel Base64Model HeaderModel HeaderSpec
  BoundaryModel BoundarySpec BoundaryFacts UploadModel MultipartModel MultipartSem MultipartSpec MultipartDet FormSpec FormFacts
  MultipartInv BodySpec HeadLineFacts ItemFacts BodyFacts PropsData PropsPart PropsMultipart PropsDelim PartErrors PropsLost.

(** the parts before it are stored, then the item of [p] decides *)
Lemma up_to_item reg name2cp mk_temp st m D ps1 p ps2 it s csize len fuel e :
  settings_ok reg st m -> can_create mk_temp -> delimiter D ->
  Forall (part_ok D) (ps1 ++ ps2) -> within st ps1 -> ~ occurs D (render_part p) ->
  item_of reg name2cp (render_part p) it -> small (render_part p) it ->
  arrives s (render_form D (ps1 ++ p :: ps2)) csize len fuel ->
  (forall u, holds u ps1 -> u_step reg mk_temp st m it u = Err e) ->
  fst (parse_src reg name2cp mk_temp st D fuel csize len default_handler s) = Err e.
Proof.
  intros HS Hmk HD HP HW Ho Hit Hsm (A1 & A2 & A3 & A4 & A5) HE. pose proof HD as [HD3 HN].
  destruct (settings_qd reg st m HS) as [qd Hq]. destruct HS as ((c & Hr & Hc) & Hst & Hm & _).
  pose proof (form_splits_with D ps1 p ps2 HD HP Ho) as S1. pose proof HP as HP'. apply Forall_app in HP' as [HP1 HP2].
  destruct (form_items reg name2cp D ps1 HD HP1) as (i1 & I1 & I0 & I2).
  destruct (form_items reg name2cp D ps2 HD HP2) as (i2 & J1 & _ & J2).
  rewrite <- A1 in S1, A5. unfold default_handler.
  assert (F1 : forall P : str -> item -> Prop, Forall2 P (map render_part ps1) i1 -> Forall2 P (map render_part ps2) i2 ->
     P [] KSkip -> P (render_part p) it -> P tail_piece KSkip ->
     Forall2 P ([] :: map render_part ps1 ++ render_part p :: map render_part ps2 ++ [tail_piece]) ((KSkip :: i1) ++ it :: i2 ++ [KSkip])).
  { intros P P1 P2 Q1 Q2 Q3. cbn [app]. constructor; [easy|]. apply Forall2_app; [easy|]. constructor; [easy|].
    apply Forall2_app; [easy|]. now constructor. }
  assert (HT : item_of reg name2cp tail_piece KSkip /\ small tail_piece KSkip).
  { split; [reflexivity|]. apply small_short. unfold head_size. cbn. lia. }
  assert (HO : item_of reg name2cp [] KSkip /\ small [] KSkip).
  { split; [reflexivity|]. apply small_short. unfold head_size. cbn. lia. }
  pose proof (parse_src_det reg name2cp mk_temp st D (delim_dok D HD) s csize len m qd fuel _ ((KSkip :: i1) ++ it :: i2 ++ [KSkip]) A3 A2 Hq A4 A5 Hst Hm
                (create_no_stop mk_temp Hmk) S1 (F1 _ I1 J1 (proj1 HO) Hit (proj1 HT)) (F1 _ I2 J2 (proj2 HO) Hsm (proj2 HT))) as R1.
  assert (HU : u_run reg mk_temp st m ((KSkip :: i1) ++ it :: i2 ++ [KSkip]) u_start = Err e).
  { rewrite run_bind. cbn [u_run u_step bind].
    assert (H0 : holds (u_finish u_start) []) by (repeat split; intros; constructor).
    destruct (run_parts reg name2cp mk_temp st m c Hr Hc Hmk D ps1 [] i1 (u_finish u_start) HP1 I0 HW H0) as (u' & -> & HH).
    cbn [bind u_run]. now rewrite (HE u' HH). }
  rewrite HU in R1. now rewrite R1.
Qed.

(** ** C22.  A field whose name is not ASCII: the whole form is refused with UnicodeDecodeError *)
Theorem C22_nonascii_refuted :
  forall reg name2cp mk_temp st m D ps1 p ps2 s csize len fuel,
  settings_ok reg st m -> can_create mk_temp -> delimiter D ->
  Forall (part_ok D) (ps1 ++ ps2) -> within st (ps1 ++ [p]) ->
  head_ok p -> ~ occurs D (render_part p) -> pt_file p = None -> pt_b64 p = false -> ascii_only (pt_name p) = false ->
  arrives s (render_form D (ps1 ++ p :: ps2)) csize len fuel ->
  fst (parse_src reg name2cp mk_temp st D fuel csize len default_handler s) = Err UnicodeDecodeError.
Proof.
  intros reg name2cp mk_temp st m D ps1 p ps2 s csize len fuel HS Hmk HD HP [HW1 HW2] HH Ho Hf Hb Ha HA.
  assert (HisF : is_field p = true) by (unfold is_field; now rewrite Hf).
  rewrite field_count_app, HisF in HW1. rewrite field_bytes_app, HisF in HW2.
  destruct (part_class reg name2cp p HH) as (h & E1 & E2 & _). specialize (E2 Hf). rewrite Hb in E2.
  apply (up_to_item reg name2cp mk_temp st m D ps1 p ps2 (KField (pt_name p) None h (pt_raw p)) s csize len fuel); try assumption.
  - split; [destruct (ms_dnum st); [lia|easy]|destruct (ms_dmem st); [lia|easy]].
  - unfold item_of. rewrite E1. now rewrite E2.
  - intros H. discriminate H.
  - intros u HU%holds_finish. unfold u_step. destruct HU as (_ & _ & H3 & H4). unfold u_field. rewrite H3, H4.
    destruct HS as ((c & Hr & Hc) & _).
    assert (E3 : match ms_dnum st with Some n => Z.ltb n (Z.of_nat (field_count ps1) + 1) | None => false end = false)
      by (destruct (ms_dnum st); [lia|easy]).
    rewrite E3.
    assert (E4 : match ms_dmem st with
                 | Some n => let size := (n - Z.of_nat (field_bytes ps1))%Z in
                     if Z.ltb size 0 then Err AssertionError else @Ok str (firstn (Z.to_nat size) (pt_raw p))
                 | None => @Ok str (pt_raw p)
                 end = @Ok str (pt_raw p)).
    { destruct (ms_dmem st) as [n|]; [|easy]. cbv zeta. replace (Z.ltb (n - Z.of_nat (field_bytes ps1)) 0) with false by lia.
      now rewrite firstn_all2 by lia. }
    match goal with |- context [@bind str ust ?x _] => replace x with (@Ok str (pt_raw p)) end. cbn [bind is_b64enc].
    assert (E5 : match ms_dmem st with
                 | Some n => Z.ltb n (Z.of_nat (field_bytes ps1) + zlen (pt_raw p) + (zlen (pt_name p) + 2))
                 | None => false end = false) by (destruct (ms_dmem st); [unfold zlen; lia|easy]).
    rewrite E5. unfold post_append, bytes_to_text, encode_bytes_replace. rewrite Hr, Ha. reflexivity.
Qed.
Print Assumptions C22_nonascii_refuted.
Example C22_nonascii_case : let p := mkPart [195%N; 169%N] None None false !"v" !"v" in
  head_ok p /\ ~ occurs !"--X" (render_part p) /\ within ex_ms (ex_parts ++ [p]) /\
  ex_parse ex_ms (render_form !"--X" ([ex_field] ++ p :: [ex_file])) = Err UnicodeDecodeError.
Proof.
  cbv zeta. split; [quot|]. split; [now apply find_None|]. split; [split; vm_compute; discriminate|]. vm_compute. reflexivity.
Qed.

(** ** C43.  The limit 0, for every query string and every form with a field *)
Theorem C43_zero_all_refuted :
  forall reg name2cp mk_temp st m D pre es epi s csize len fuel r qs blank enc,
  settings_ok reg (with_dnum st None) m -> can_create mk_temp -> delimiter D ->
  pre_ok D pre -> Forall (piece_ok D) es -> junk_ok D (!"--" ++ epi) ->
  arrives s (render_body D pre es epi) csize len fuel -> 0 < field_count (parts_of es) ->
  fst (parse_src reg name2cp mk_temp (with_dnum st None) D fuel csize len default_handler s) = Ok r ->
  fst (parse_src reg name2cp mk_temp (with_dnum st (Some 0%Z)) D fuel csize len default_handler s) = Err TooManyFieldsSent /\
  limited_parse_qsl reg qs blank enc (Some 0%Z) = limited_parse_qsl reg qs blank enc None /\
  limited_parse_qsl reg qs blank enc (Some 0%Z) <> Err TooManyFieldsSent.
Proof.
  intros reg name2cp mk_temp st m D pre es epi s csize len fuel r qs blank enc HS Hmk HD HP HF HE HA Hc HR.
  destruct (C42_unlimited reg qs blank enc) as [H1 H2]. split; [|split; [exact H1|now rewrite H1]].
  rewrite (C24_form_limit reg name2cp mk_temp st m D pre es epi s csize len fuel 0%Z r); try assumption; [|lia].
  now replace (Z.ltb 0 (Z.of_nat (field_count (parts_of es)))) with true by lia.
Qed.
Print Assumptions C43_zero_all_refuted.
Example C43_zero_case :
  ex_parse (ex_st None (Some 0%Z)) (render_form !"--X" two_fields) = Err TooManyFieldsSent /\
  limited_parse_qsl ex_reg !"a=1&a=2&b=3" true !"utf-8" (Some 0%Z) = Ok [(!"a", !"1"); (!"a", !"2"); (!"b", !"3")].
Proof. split; vm_compute; reflexivity. Qed.
