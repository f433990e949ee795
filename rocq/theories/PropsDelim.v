(** * C114: only a delimiter line separates parts

    RFC 2046, 5.1.1: a delimiter stands at the beginning of a line and is followed by white
    space and the end of the line; after the closing delimiter the form is over.  The code
    looks for two hyphens and the boundary anywhere. *)
From Coq Require Import ZifyBool ZifyN ZifyNat.
From Verif Require Import Py PyFacts PyDict Spec StreamModel StreamSpec CodecModel QueryModel Base64Model HeaderSpec
  BoundaryModel BoundarySpec BoundaryFacts UploadModel MultipartModel MultipartSem MultipartSpec MultipartDet FormSpec FormFacts
  MultipartInv BodySpec HeadLineFacts ItemFacts BodyFacts PropsData PropsPart PropsMultipart.

(** the part [p] with the content [c] *)
Definition with_content (p : part) (c : str) : part :=
  mkPart (pt_name p) (pt_file p) (pt_type p) (pt_b64 p) c c.
(** the text does not end in a line break *)
Definition within_line (c : str) : Prop := c <> [] /\ last c 0%N <> 10%N /\ last c 0%N <> 13%N.

Lemma first_glued D u v : D <> [] -> ~ occurs D (u ++ removelast D) -> first_occ D (u ++ D ++ v) u v.
Proof.
  intros HD Hn. split; [easy|]. intros u' v' E.
  destruct (Nat.le_gt_cases (length u) (length u')) as [?|Hlt]; [easy|exfalso]. apply Hn.
  rewrite (app_removelast_last 0%N HD) in E at 1.
  replace (u ++ (removelast D ++ [last D 0%N]) ++ v) with ((u ++ removelast D) ++ [last D 0%N] ++ v) in E by now rewrite <- !app_assoc.
  symmetry in E.
  assert (HL : length D = S (length (removelast D))).
  { rewrite (app_removelast_last 0%N HD) at 1. rewrite app_length. cbn. lia. }
  destruct (app_eq_split (u' ++ D) v' (u ++ removelast D) ([last D 0%N] ++ v)) as (e & H1 & _).
  - rewrite <- app_assoc. exact E.
  - rewrite !app_length. lia.
  - exists u', e. now rewrite H1, <- app_assoc.
Qed.

Lemma trim_within u : last u 0%N <> 10%N -> last u 0%N <> 13%N -> trim_eol u = u.
Proof.
  intros H1 H2. destruct u as [|x u] using rev_ind; [reflexivity|].
  rewrite last_last in H1, H2. unfold trim_eol. rewrite rev_app_distr. cbn [rev app].
  destruct x as [|p]; [reflexivity|].
  repeat (destruct p as [p|p|]; try reflexivity); try (now elim H1); now elim H2.
Qed.
Lemma last_app {A} (a b : list A) d : b <> [] -> last (a ++ b) d = last b d.
Proof.
  intros Hb. destruct (exists_last Hb) as (b' & x & ->). now rewrite app_assoc, !last_last.
Qed.

(** bodies with the same pieces give the same result *)
Lemma same_pieces reg name2cp mk_temp st m D ts its s1 s2 b1 b2 csize1 csize2 len1 len2 fuel1 fuel2 :
  settings_ok reg st m -> can_create mk_temp -> delimiter D ->
  splits D b1 ts -> splits D b2 ts -> Forall2 (item_of reg name2cp) ts its -> Forall2 small ts its ->
  arrives s1 b1 csize1 len1 fuel1 -> arrives s2 b2 csize2 len2 fuel2 ->
  fst (parse_src reg name2cp mk_temp st D fuel1 csize1 len1 default_handler s1) =
  fst (parse_src reg name2cp mk_temp st D fuel2 csize2 len2 default_handler s2).
Proof.
  intros HS Hmk HD S1 S2 I1 I2 (A1 & A2 & A3 & A4 & A5) (B1 & B2 & B3 & B4 & B5).
  destruct (settings_qd reg st m HS) as [qd Hq]. destruct HS as (_ & Hst & Hm & _).
  subst b1 b2. unfold default_handler.
  pose proof (parse_src_det reg name2cp mk_temp st D (delim_dok D HD) s1 csize1 len1 m qd fuel1 ts its A3 A2 Hq A4 A5 Hst Hm
                (create_no_stop mk_temp Hmk) S1 I1 I2) as R1.
  pose proof (parse_src_det reg name2cp mk_temp st D (delim_dok D HD) s2 csize2 len2 m qd fuel2 ts its B3 B2 Hq B4 B5 Hst Hm
                (create_no_stop mk_temp Hmk) S2 I1 I2) as R2.
  destruct (u_run reg mk_temp st m its u_start); rewrite R1, R2; reflexivity.
Qed.

(** the text of a delimiter in the middle of a line of a part's content ends the part, and what
    follows it, if it looks like a part, becomes one: the sender of a field can add fields and
    files that a conforming program in front does not see.  For every form *)
Theorem C114_inside_a_line_refuted :
  forall reg name2cp mk_temp st m D ps1 p q ps2 s1 s2 csize1 csize2 len1 len2 fuel1 fuel2,
  settings_ok reg st m -> can_create mk_temp -> delimiter D ->
  Forall (part_ok D) (ps1 ++ p :: q :: ps2) ->
  within_line (pt_raw p) -> ~ occurs D (render_part p ++ removelast D) ->
  arrives s1 (render_form D (ps1 ++ with_content p (pt_raw p ++ D ++ render_part q) :: ps2)) csize1 len1 fuel1 ->
  arrives s2 (render_form D (ps1 ++ p :: q :: ps2)) csize2 len2 fuel2 ->
  fst (parse_src reg name2cp mk_temp st D fuel1 csize1 len1 default_handler s1) =
  fst (parse_src reg name2cp mk_temp st D fuel2 csize2 len2 default_handler s2).
Proof.
  intros reg name2cp mk_temp st m D ps1 p q ps2 s1 s2 csize1 csize2 len1 len2 fuel1 fuel2 HS Hmk HD HP (W0 & W1 & W2) Hg A1 A2.
  pose proof HD as [HD3 HN]. assert (HDn : D <> []) by (destruct D; [cbn in HD3; lia|easy]).
  pose proof (parts_pieces D _ HP) as HE.
  destruct (pieces_items reg name2cp D _ HE) as (its & _ & I1 & I2).
  pose proof (end_ok name2cp mk_temp D HD3 HN) as HEnd.
  assert (HT : item_of reg name2cp tail_piece KSkip /\ small tail_piece KSkip).
  { destruct HEnd as [_ Hi]. split; [now apply ignorable_item|now apply small_ignorable]. }
  assert (HO : item_of reg name2cp [] KSkip /\ small [] KSkip).
  { split; [reflexivity|]. apply small_short. unfold head_size. cbn. lia. }
  set (ts := [] :: map piece_bytes (map APart (ps1 ++ p :: q :: ps2)) ++ [tail_piece]).
  assert (HB : map piece_bytes (map APart (ps1 ++ p :: q :: ps2)) = map render_part (ps1 ++ p :: q :: ps2)) by now rewrite map_map.
  refine (same_pieces reg name2cp mk_temp st m D ts (KSkip :: its ++ [KSkip]) s1 s2 _ _ csize1 csize2 len1 len2 fuel1 fuel2 HS Hmk HD _ _ _ _ A1 A2); clear A1 A2.
  - unfold ts. rewrite HB. rewrite form_body. unfold render_body.
    assert (HP1 : Forall (part_ok D) ps1) by (apply Forall_app in HP; apply HP).
    assert (HP2 : part_ok D q /\ Forall (part_ok D) ps2).
    { apply Forall_app in HP as [_ HP]. inversion_clear HP as [|? ? _ HP']. inversion_clear HP'. now split. }
    assert (EB : upto D None (map APart (ps1 ++ with_content p (pt_raw p ++ D ++ render_part q) :: ps2)) =
                 upto D None (map APart ps1) ++ render_part p ++ D ++ render_part q ++ crlf ++ D ++
                 concat (map (fun e => piece_bytes e ++ crlf ++ D) (map APart ps2))).
    { unfold upto. rewrite map_app. rewrite map_app, concat_app. cbn [map concat piece_bytes].
      unfold render_part at 1. cbn [with_content pt_raw].
      change (part_head (with_content p (pt_raw p ++ D ++ render_part q))) with (part_head p).
      unfold render_part at 2. now rewrite <- !app_assoc. }
    rewrite EB. rewrite <- !app_assoc. rewrite map_app. cbn [map app]. rewrite <- app_assoc. cbn [app].
    apply (cuts_splits D _ ([] :: map render_part ps1) (render_part p ++ D ++ render_part q ++ crlf ++ D ++
             concat (map (fun e => piece_bytes e ++ crlf ++ D) (map APart ps2)) ++ !"--" ++ crlf)).
    + replace (map render_part ps1) with (map piece_bytes (map APart ps1)) by now rewrite map_map.
      apply (upto_cuts D None (map APart ps1)); try easy. now apply parts_pieces.
    + assert (ET : trim_eol (render_part p) = render_part p).
      { unfold render_part. rewrite !app_assoc. apply trim_within; now rewrite last_app by exact W0. }
      eapply sp_cons.
      * unfold render_part. intros E. apply (f_equal (@length N)) in E. rewrite !app_length in E. cbn in E. lia.
      * rewrite <- ET at 2. apply block_found. apply first_glued; [exact HDn|exact Hg].
      * cbn [odef]. eapply sp_cons.
        -- unfold render_part. intros E. apply (f_equal (@length N)) in E. rewrite !app_length in E. cbn in E. lia.
        -- apply block_delim; try easy. apply HP2.
        -- cbn [odef]. apply (cuts_splits D _ _ (!"--" ++ crlf)).
           ++ replace (map render_part ps2) with (map piece_bytes (map APart ps2)) by now rewrite map_map.
              apply pieces_cuts; try easy. now apply parts_pieces.
           ++ apply tail_splits; [easy|]. apply HEnd.
  - unfold ts. rewrite HB. now apply body_splits.
  - unfold ts. constructor; [apply HO|]. apply Forall2_app; [easy|]. constructor; [apply HT|constructor].
  - unfold ts. constructor; [apply HO|]. apply Forall2_app; [easy|]. constructor; [apply HT|constructor].
Qed.
Print Assumptions C114_inside_a_line_refuted.

(** a line that only begins like a delimiter (as that of an inner multipart text with a longer
    boundary) ends the part too; the rest of the content is lost *)
Theorem C114_longer_boundary_refuted :
  forall reg name2cp mk_temp st m D ps1 p j ps2 s1 s2 csize1 csize2 len1 len2 fuel1 fuel2,
  settings_ok reg st m -> can_create mk_temp -> delimiter D ->
  Forall (part_ok D) (ps1 ++ p :: ps2) -> junk_ok D j ->
  arrives s1 (render_form D (ps1 ++ with_content p (pt_raw p ++ crlf ++ D ++ j) :: ps2)) csize1 len1 fuel1 ->
  arrives s2 (render_form D (ps1 ++ p :: ps2)) csize2 len2 fuel2 ->
  fst (parse_src reg name2cp mk_temp st D fuel1 csize1 len1 default_handler s1) =
  fst (parse_src reg name2cp mk_temp st D fuel2 csize2 len2 default_handler s2).
Proof.
  intros reg name2cp mk_temp st m D ps1 p j ps2 s1 s2 csize1 csize2 len1 len2 fuel1 fuel2 HS Hmk HD HP HJ A1 A2.
  set (es := map APart ps1 ++ APart p :: AJunk j :: map APart ps2).
  assert (EB : render_form D (ps1 ++ with_content p (pt_raw p ++ crlf ++ D ++ j) :: ps2) = render_body D None es crlf).
  { rewrite form_body. unfold render_body, es, upto. rewrite map_app. rewrite !map_app, !concat_app. cbn [map concat piece_bytes].
    unfold render_part. cbn [with_content pt_raw].
    change (part_head (with_content p (pt_raw p ++ crlf ++ D ++ j))) with (part_head p).
    now rewrite <- !app_assoc. }
  assert (EP : parts_of es = ps1 ++ p :: ps2).
  { unfold es, parts_of. rewrite flat_map_app. cbn [flat_map app].
    assert (G : forall l, flat_map (fun e => match e with APart p => [p] | AJunk _ => [] end) (map APart l) = l)
      by (induction l as [|x l IH]; [reflexivity|cbn; now rewrite IH]).
    now rewrite !G. }
  rewrite EB in A1. rewrite <- EP in A2.
  apply (C23_no_trace_partial reg name2cp mk_temp st m D None es crlf s1 s2 csize1 csize2 len1 len2 fuel1 fuel2); try easy.
  - unfold es. apply Forall_app in HP as [HP1 HP2]. inversion_clear HP2 as [|? ? Hp HP3].
    apply Forall_app. split; [now apply parts_pieces|]. constructor; [exact Hp|]. constructor; [exact HJ|]. now apply parts_pieces.
  - destruct HD as [H3 HN]. now apply (end_ok name2cp mk_temp).
Qed.
Print Assumptions C114_longer_boundary_refuted.

(** the closing delimiter does not close the form: the parts of a second form after it belong to
    the form as well *)
Theorem C114_closing_delimiter_refuted :
  forall reg name2cp mk_temp st m D ps1 ps2 s1 s2 csize1 csize2 len1 len2 fuel1 fuel2,
  settings_ok reg st m -> can_create mk_temp -> delimiter D ->
  Forall (part_ok D) (ps1 ++ ps2) ->
  arrives s1 (render_form D ps1 ++ render_form D ps2) csize1 len1 fuel1 ->
  arrives s2 (render_form D (ps1 ++ ps2)) csize2 len2 fuel2 ->
  fst (parse_src reg name2cp mk_temp st D fuel1 csize1 len1 default_handler s1) =
  fst (parse_src reg name2cp mk_temp st D fuel2 csize2 len2 default_handler s2).
Proof.
  intros reg name2cp mk_temp st m D ps1 ps2 s1 s2 csize1 csize2 len1 len2 fuel1 fuel2 HS Hmk HD HP A1 A2.
  set (es := map APart ps1 ++ AJunk !"--" :: map APart ps2).
  assert (EB : render_form D ps1 ++ render_form D ps2 = render_body D None es crlf).
  { rewrite !form_body. unfold render_body, es, upto, body_open. rewrite !map_app, !concat_app. cbn [map concat piece_bytes].
    now rewrite <- !app_assoc. }
  assert (EP : parts_of es = ps1 ++ ps2).
  { unfold es, parts_of. rewrite flat_map_app. cbn [flat_map app].
    assert (G : forall l, flat_map (fun e => match e with APart p => [p] | AJunk _ => [] end) (map APart l) = l)
      by (induction l as [|x l IH]; [reflexivity|cbn; now rewrite IH]).
    now rewrite !G. }
  rewrite EB in A1. rewrite <- EP in A2.
  apply (C23_no_trace_partial reg name2cp mk_temp st m D None es crlf s1 s2 csize1 csize2 len1 len2 fuel1 fuel2); try easy.
  - unfold es. apply Forall_app in HP as [HP1 HP2].
    apply Forall_app. split; [now apply parts_pieces|]. constructor; [|now apply parts_pieces].
    destruct HD as [H3 HN]. split; [|split].
    + intros (u & v & H). apply (f_equal (@length N)) in H. rewrite !app_length in H. cbn in H. lia.
    + apply find_None. reflexivity.
    + intros [H|[H|[]]]; discriminate H.
  - destruct HD as [H3 HN]. now apply (end_ok name2cp mk_temp).
Qed.
Print Assumptions C114_closing_delimiter_refuted.

(** a field of a guest's comment that brings the field [admin] along *)
Definition ex_comment : part := mkPart !"comment" None None false !"hello" !"hello".
Definition ex_admin : part := mkPart !"admin" None None false !"1" !"1".
Example C114_case :
  Forall (part_ok !"--X") [ex_comment; ex_admin] /\ within_line (pt_raw ex_comment) /\
  ~ occurs !"--X" (render_part ex_comment ++ removelast !"--X") /\
  junk_ok !"--X" (!"Y" ++ crlf ++ !"inner text") /\
  match ex_parse ex_ms (render_form !"--X" [with_content ex_comment (!"hello" ++ !"--X" ++ render_part ex_admin)]) with
  | Ok (post, _) => map en_data (getl !"admin" post) = [!"1"] /\ map en_data (getl !"comment" post) = [!"hello"]
  | Err _ => False end.
Proof.
  assert (HO : forall p, find !"--X" (render_part p) = None -> ~ occurs !"--X" (render_part p)) by (intros p; apply find_None).
  split; [repeat constructor; try (now apply HO); quot|]. split; [repeat split; discriminate|].
  split; [now apply find_None|]. split.
  - split; [now apply find_None|]. split; [now apply find_None|]. now apply findc_None.
  - vm_compute. split; reflexivity.
Qed.
