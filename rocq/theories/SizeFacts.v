(** * The sizes of uploaded files (claims C92, C93) *)
From Coq Require Import Lia List.
From Verif Require Import Py PyFacts PyDict Spec StreamModel CodecModel QueryModel Base64Model HeaderModel
  BoundaryModel BoundarySpec BoundaryFacts UploadModel MultipartModel MultipartSem MultipartFacts
  FormSpec UploadFacts MultipartInv.

(** what a handler would return as the content of the current file *)
Definition i_content (h : inner) : option str :=
  match h with
  | IMem m => match mh_activated m with Some true => mh_file m | _ => None end
  | ITemp t => th_file t
  end.
Definition h_content (h : handler) : option str :=
  match h with HMem m => i_content (IMem m) | HTemp t => i_content (ITemp t) | HConv c => i_content (cv_inner c) end.
(** the handler keeps what it receives: later handlers get nothing *)
Definition absorbs (h : handler) : bool :=
  match h with HMem m => match mh_activated m with Some b => b | None => false end | _ => true end.
Definition len_ok (h : handler) (c : nat) : Prop := match h_content h with Some f => length f = c | None => True end.

Fixpoint aligned (hs : list handler) (cs : list nat) : Prop :=
  match hs, cs with
  | h :: hs', c :: cs' => len_ok h c /\ (if absorbs h then Forall (eq 0) cs' else aligned hs' cs')
  | [], [] => True
  | _, _ => False
  end.

Lemma zeros_map {A} (l : list A) : Forall (eq 0) (map (fun _ => 0) l).
Proof. induction l; constructor; easy. Qed.

Lemma inner_complete_content c h f : inner_complete c h = Ok (Some f) -> i_content h = Some (uf_content f) /\ uf_size f = c.
Proof.
  destruct h as [[a i w]|[i w]]; cbn; [destruct a as [[|]|]; try easy|]; destruct w, i; try easy; intros E; injection E as <-; easy.
Qed.
Lemma h_complete_content c h f : h_complete c h = Ok (Some f) -> h_content h = Some (uf_content f) /\ uf_size f = c.
Proof. destruct h as [m|t|c0]; [apply (inner_complete_content c (IMem m))|apply (inner_complete_content c (ITemp t))|apply inner_complete_content]. Qed.

Section Sizes.
  (** creating a temporary file never raises the parser's own control exception *)
  Context (mk_temp : str -> res unit) (max : option Z) (Hmk : forall x, mk_temp x <> Err StopFutureHandlers).

  Lemma new_file_ok i h r h' : h_new_file mk_temp i h = (r, h') -> r = Ok tt \/ r = Err StopFutureHandlers ->
    len_ok h' 0 /\ (r = Err StopFutureHandlers -> absorbs h' = true).
  Proof.
    destruct h as [[a j w]|[j w]|[[[a j w]|[j w]] n sw]]; cbn; unfold len_ok, conv_new_file, inner_new_file; cbn.
    - destruct a as [[|]|]; cbn; intros E; injection E as <- <-; cbn; intros [H|H]; easy.
    - unfold temp_new_file. pose proof (Hmk (temp_suffix (fi_name i))).
      destruct (mk_temp _) as [[]|e]; intros E; injection E as <- <-; cbn; intros [E|E]; easy.
    - destruct a as [[|]|]; cbn; intros E; injection E as <- <-; cbn; intros [H|H]; easy.
    - unfold temp_new_file. pose proof (Hmk (temp_suffix (fi_name i))).
      destruct (mk_temp _) as [[]|e]; intros E; injection E as <- <-; cbn; intros [E|E]; easy.
  Qed.
  Lemma new_files_aligned i : forall hs hs', new_files mk_temp i hs = Ok hs' -> aligned hs' (map (fun _ => 0) hs').
  Proof.
    induction hs as [|h hs IH]; intros hs'; cbn [new_files]; [intros E; now injection E as <-|].
    destruct (h_new_file mk_temp i h) as [[[]|e] h'] eqn:E.
    - destruct (new_files mk_temp i hs) as [r|]; cbn [bind]; [|easy]. intros H. injection H as <-. cbn [map aligned].
      destruct (new_file_ok i h (Ok tt) h' E (or_introl eq_refl)) as [H1 _]. split; [easy|].
      destruct (absorbs h'); [apply zeros_map|now apply IH].
    - assert (He : e = StopFutureHandlers -> Ok (h' :: hs) = Ok hs' -> aligned hs' (map (fun _ => 0) hs')).
      { intros -> H. injection H as <-. cbn [map aligned].
        destruct (new_file_ok i h _ h' E (or_intror eq_refl)) as [H1 H2]. split; [easy|]. rewrite (H2 eq_refl). apply zeros_map. }
      destruct e; try easy. now apply He.
  Qed.

  Lemma inner_receive_ok d h r h' c : inner_receive d h = (Ok r, h') ->
    match i_content h with Some f => length f = c | None => True end ->
    match i_content h' with Some f => length f = c + length d | None => True end.
  Proof.
    destruct h as [[a j w]|[j w]]; cbn.
    - unfold mem_receive; cbn. destruct a as [[|]|]; [destruct w as [w|]| |]; try easy; intros E; injection E as <- <-; cbn.
      + intros <-. apply app_length.
      + easy.
    - unfold temp_receive; cbn. destruct w as [w|]; [|easy]. intros E; injection E as <- <-; cbn. intros <-. apply app_length.
  Qed.
  Lemma conv_switch_ok c c' n : conv_switch mk_temp c = Ok c' ->
    match i_content (cv_inner c) with Some f => length f = n | None => True end ->
    match i_content (cv_inner c') with Some f => length f = n | None => True end.
  Proof.
    unfold conv_switch. destruct (inner_complete _ _) as [[f|]|e] eqn:E; cbn [bind]; try easy.
    destruct (inner_complete_content _ _ _ E) as [-> _].
    destruct (inner_info _) as [i|]; [|easy]. unfold temp_new_file. destruct (mk_temp _) as [u|e]; [|easy].
    cbn. intros H. injection H as <-. cbn. easy.
  Qed.
  Lemma receive_ok d h r h' c : h_receive mk_temp max d h = (Ok r, h') -> len_ok h c ->
    len_ok h' (c + length d) /\ absorbs h' = absorbs h /\ r = (if absorbs h then None else Some d).
  Proof.
    unfold len_ok. destruct h as [m|t|cv]; cbn [h_receive].
    - pose proof (inner_receive_ok d (IMem m)) as HI. cbn in HI. destruct (mem_receive d m) as [r1 m1] eqn:E.
      intros H. injection H as -> <-. intros HL. split; [exact (HI r (IMem m1) c eq_refl HL)|].
      unfold mem_receive in E. cbn. destruct m as [[[|]|] j w]; cbn in *; [destruct w as [w|]| |]; try easy; injection E as <- <-; easy.
    - pose proof (inner_receive_ok d (ITemp t)) as HI. cbn in HI. destruct (temp_receive d t) as [r1 t1] eqn:E.
      intros H. injection H as -> <-. intros HL. split; [exact (HI r (ITemp t1) c eq_refl HL)|].
      unfold temp_receive in E. cbn. destruct t as [j w]; cbn in *; destruct w as [w|]; [|easy]. now injection E as <- <-.
    - unfold conv_receive. set (need := (negb (cv_switched cv) && _)%bool).
      destruct (if need then conv_switch mk_temp cv else Ok cv) as [cv1|e] eqn:ES; [|easy].
      intros H HL. assert (HL1 : match i_content (cv_inner cv1) with Some f => length f = c | None => True end).
      { destruct need; [now apply (conv_switch_ok cv)|now injection ES as <-]. }
      destruct (inner_receive d (cv_inner cv1)) as [[r1|e] h1] eqn:E; [|easy]. injection H as <- <-. cbn.
      split; [|easy]. now apply (inner_receive_ok d _ r1 h1 c E).
  Qed.

  Lemma feed_aligned : forall hs d cs hc', feed mk_temp max d hs cs = Ok hc' -> aligned hs cs ->
    aligned (fst hc') (snd hc').
  Proof.
    induction hs as [|h hs IH]; intros d cs hc'; cbn [feed]; [intros E; now injection E as <-|].
    destruct cs as [|c cs]; [easy|].
    destruct (h_receive mk_temp max d h) as [[r|e] h'] eqn:E; [|easy]. cbn [aligned]. intros HF [HL HA].
    destruct (receive_ok d h r h' c E HL) as (HL' & HB & ->). rewrite <- HB in HA, HF. destruct (absorbs h') eqn:EA.
    - injection HF as <-. cbn [fst snd aligned]. now rewrite EA.
    - destruct (feed mk_temp max d hs cs) as [hc|e] eqn:EF; cbn [bind] in HF; [|easy]. injection HF as <-.
      cbn [fst snd aligned]. rewrite EA. split; [easy|]. now apply (IH d cs hc EF).
  Qed.
  Lemma fed_aligned b t hc o : fed mk_temp max b t hc o -> forall hc', o = Ok hc' -> aligned (fst hc) (snd hc) ->
    aligned (fst hc') (snd hc').
  Proof.
    induction 1 as [b hc|c rest hc hc1 o HF HR IH|c rest hc e HF|c rest x hc hc1 o Hmod HD HF HR IH
                   |c rest x hc e Hmod HD HF|c rest hc e Hmod HD|rest hc Hmod]; intros hc' E HA; try easy.
    - now injection E as <-.
    - apply IH; [easy|]. now apply (feed_aligned _ _ _ _ HF).
    - apply IH; [easy|]. now apply (feed_aligned _ _ _ _ HF).
  Qed.

  (** how far a payload moves the counters *)
  Lemma feed_counters N : forall hs d cs hc', feed mk_temp max d hs cs = Ok hc' ->
    Forall (fun c => c <= N) cs -> Forall (fun c => c <= N + length d) (snd hc').
  Proof.
    induction hs as [|h hs IH]; intros d cs hc' H HC; cbn [feed] in H.
    - injection H as <-. cbn. eapply Forall_impl; [|exact HC]. cbn. lia.
    - destruct cs as [|c cs]; [injection H as <-; constructor|]. inversion HC as [|? ? H1 H2]; subst.
      assert (HW : Forall (fun c0 => c0 <= N + length d) cs) by (eapply Forall_impl; [|exact H2]; cbn; lia).
      destruct (h_receive mk_temp max d h) as [[[x|]|e] h'] eqn:E; [| |easy].
      + destruct (feed mk_temp max x hs cs) as [hc|e] eqn:EF; cbn [bind] in H; [|easy]. injection H as <-.
        assert (x = d) as ->.
        { destruct h as [[[[|]|] j w]|[j w]|cv]; cbn in E.
          - destruct w; easy.
          - now injection E as <- _.
          - easy.
          - unfold temp_receive in E. cbn in E. destruct w; easy.
          - unfold conv_receive in E. set (need := (negb (cv_switched cv) && _)%bool) in E.
            destruct (if need then conv_switch mk_temp cv else Ok cv) as [cv1|e1]; [|easy].
            destruct (inner_receive d (cv_inner cv1)) as [[r1|e1] h1]; easy. }
        constructor; [lia|]. now apply (IH d cs hc EF).
      + injection H as <-. constructor; [lia|easy].
  Qed.
End Sizes.

(** ** The loop *)
Definition sizeI (p : pst) : Prop :=
  (forall k f, In f (getl k (p_files p)) -> uf_size f = length (uf_content f)) /\
  (p_old p <> [] -> aligned (p_hs p) (p_counters p)).
Definition file_bytes (d : dict (list ufile)) : nat :=
  list_sum (map (fun e => list_sum (map (fun x => length (uf_content x)) (snd e))) d).

Lemma files_append_bytes name f d : file_bytes (files_append name f d) = file_bytes d + length (uf_content f).
Proof.
  unfold files_append, file_bytes.
  pose proof (measure_dset (fun l => list_sum (map (fun x => length (uf_content x)) l)) name
    (match dget name d with Some l => l | None => [] end ++ [f]) d) as M. cbv beta in M. rewrite map_app, list_sum_app in M. cbn [map] in M.
  change (list_sum [length (uf_content f)]) with (length (uf_content f) + 0) in M.
  destruct (dget name d) as [l|]; [lia|]. change (list_sum (map (fun x => length (uf_content x)) [])) with 0 in M. lia.
Qed.
(** completing a file adds nothing, or one file whose size is its length *)
Definition one_more (name : str) (cs : list nat) (files files' : dict (list ufile)) : Prop :=
  files' = files \/
  exists f, files' = files_append name f files /\ uf_size f = length (uf_content f) /\ uf_size f <= list_max cs.
Lemma one_more_cons name c cs files files' : one_more name cs files files' -> one_more name (c :: cs) files files'.
Proof.
  intros [H|(f & H1 & H2 & H3)]; [now left|]. right. exists f. repeat split; try easy. cbn [list_max fold_right].
  change (fold_right Nat.max 0 cs) with (list_max cs). lia.
Qed.
Lemma file_complete_zero name : forall hs cs files files', Forall (eq 0) cs ->
  file_complete name hs cs files = Ok files' -> files' = files.
Proof.
  induction hs as [|h hs IH]; intros cs files files' HZ H; cbn [file_complete] in H; [now injection H as <-|].
  destruct cs as [|c cs]; [now injection H as <-|]. inversion HZ as [|? ? H0 H1]; subst.
  destruct (h_complete 0 h) as [[f|]|e] eqn:E; cbn [bind] in H; [| |easy].
  - destruct (h_complete_content _ _ _ E) as [_ E2]. unfold file_truthy in H. rewrite E2 in H. cbn in H. now apply (IH cs).
  - now apply (IH cs).
Qed.
Lemma file_complete_sized name : forall hs cs files files', aligned hs cs ->
  file_complete name hs cs files = Ok files' -> one_more name cs files files'.
Proof.
  induction hs as [|h hs IH]; intros cs files files' HA H; cbn [file_complete] in H; [left; now injection H as <-|].
  destruct cs as [|c cs]; [easy|]. cbn [aligned] in HA. destruct HA as [HL HA].
  destruct (h_complete c h) as [[f|]|e] eqn:E; cbn [bind] in H; [| |easy].
  - destruct (file_truthy f) eqn:ET.
    + injection H as <-. right. exists f. destruct (h_complete_content _ _ _ E) as [E1 E2].
      unfold len_ok in HL. rewrite E1 in HL. repeat split; [congruence|]. rewrite E2. cbn [list_max fold_right]. lia.
    + apply one_more_cons. destruct (absorbs h); [|now apply IH].
      left. now apply (file_complete_zero name hs cs).
  - apply one_more_cons. destruct (absorbs h); [|now apply IH].
    left. now apply (file_complete_zero name hs cs).
Qed.

Definition pending (p : pst) : nat := match p_old p with [] => 0 | _ => list_max (p_counters p) end.
(** everything held for the caller *)
Definition held (p : pst) : nat := data_bytes (p_post p) + file_bytes (p_files p) + pending p.

Lemma finish_sizeI p p1 : sizeI p -> finish_file p = Ok p1 -> sizeI p1 /\ held p1 <= held p /\ p_old p1 = [].
Proof.
  intros [H1 H2]. unfold finish_file, held, pending. destruct (p_old p) as [|x n] eqn:EO.
  - intros E; injection E as <-. rewrite EO. repeat split; try easy.
  - destruct (file_complete _ _ _ _) as [files|e] eqn:E; cbn [bind]; [|easy]. intros E2. injection E2 as <-.
    cbn [p_post p_files p_old]. assert (HA : x :: n <> []) by easy. specialize (H2 HA).
    destruct (file_complete_sized _ _ _ _ _ H2 E) as [->|(f & -> & Hs & Hm)].
    + repeat split; try easy. lia.
    + rewrite files_append_bytes. split; [split|split]; cbn [p_files p_old]; try easy; [|lia].
      intros k g. unfold files_append. rewrite getl_dset. destruct (seqb k (x :: n)) eqn:Ek; [|apply H1].
      intros [Hg|[<-|[]]]%in_app_or; [|easy]. now apply (H1 (x :: n)).
Qed.

Lemma field_held reg st name tenc m p payload p' : field_step reg st name tenc m p payload = Ok p' ->
  p_old p = [] -> p_files p' = p_files p /\ p_old p' = [] /\ held p' <= held p + length payload.
Proof.
  unfold field_step.
  destruct (match ms_dnum st with Some n => Z.ltb n (p_keys p + 1) | None => false end) eqn:EN; [easy|].
  match goal with |- context [@bind str pst ?x _] => destruct x as [raw|e] eqn:ER end; cbn [bind]; [|easy].
  assert (HR : length raw <= length payload).
  { destruct (ms_dmem st) as [n|]; [destruct (Z.ltb _ _); [easy|]|]; injection ER as <-; [|easy]. rewrite firstn_length. lia. }
  assert (HD : forall d, (if is_b64enc tenc then b64decode raw else Ok raw) = Ok d -> length d <= length raw).
  { intros d. destruct (is_b64enc tenc); [apply b64decode_length|]. intros E. now injection E as <-. }
  match goal with |- context [@bind str pst ?x _] => destruct x as [data|e] eqn:ED end; cbn [bind]; [|easy].
  specialize (HD data eq_refl).
  destruct (match ms_dmem st with Some n => _ | None => false end) eqn:EM; [easy|].
  destruct (post_append _ _ _ _ _) as [post|e] eqn:EP; cbn [bind]; [|easy]. intros E HO. injection E as <-.
  apply post_append_measure in EP as [P1 P2]. cbn in P2. unfold held, pending. cbn [p_post p_files p_old]. rewrite HO.
  repeat split. lia.
Qed.

Lemma classify_payload reg t ty m payload : classify reg t = Ok (ty, m, payload) -> length payload <= length t.
Proof.
  unfold classify. destruct (find crlfcrlf _) as [i|].
  - destruct (header_meta _ _ _ _) as [h|]; cbn [bind]; [|easy]. intros E. injection E as _ _ <-. rewrite skipn_length. lia.
  - intros E. injection E as _ _ <-. cbn. lia.
Qed.

Section Loop.
  Context (mk_temp : str -> res unit) (Hmk : forall x, mk_temp x <> Err StopFutureHandlers).

  Lemma feed_top max hs d cs hc' n : feed mk_temp max d hs cs = Ok hc' -> list_max cs <= n -> list_max (snd hc') <= n + length d.
  Proof.
    intros H H1. rewrite list_max_le in *. now apply (feed_counters mk_temp max Hmk n hs d cs hc' H).
  Qed.
  Lemma remove_ws_le s : length (remove_ws s) <= length s.
  Proof. unfold remove_ws. induction s as [|c s IH]; cbn; [lia|]. destruct (negb _); cbn; lia. Qed.
  Lemma fed_top max b t hc o : fed mk_temp max b t hc o -> forall hc' n, o = Ok hc' -> list_max (snd hc) <= n ->
    list_max (snd hc') <= n + length t.
  Proof.
    induction 1 as [b hc|c rest hc hc1 o HF HR IH|c rest hc e HF|c rest x hc hc1 o Hmod HD HF HR IH
                   |c rest x hc e Hmod HD HF|c rest hc e Hmod HD|rest hc Hmod]; intros hc' n E HA; try easy.
    - injection E as <-. lia.
    - rewrite app_length, Nat.add_assoc. apply (IH hc' (n + length c) E). now apply (feed_top max _ _ _ _ _ HF).
    - rewrite app_length, Nat.add_assoc. apply (IH hc' (n + length c) E).
      apply b64decode_length in HD. pose proof (remove_ws_le c). pose proof (feed_top max _ _ _ _ n HF HA). lia.
  Qed.
  Lemma list_max_zeros {A} (l : list A) : list_max (map (fun _ => 0) l) = 0.
  Proof. induction l as [|x l IH]; [easy|]. cbn. exact IH. Qed.

  Lemma step_sizeI reg name2cp st p t o : sizeI p -> step reg name2cp mk_temp st p t o ->
    match o with
    | ODone p' => sizeI p' /\ held p' <= held p + length t
    | OSkip p' => sizeI p' /\ held p' <= held p
    | OErr _ => True
    end.
  Proof.
    intros HI HS. unfold step in HS. destruct (classify reg t) as [[[ty m] payload]|e] eqn:EC; [|now subst o].
    apply classify_payload in EC.
    destruct (finish_file p) as [p1|e] eqn:EF; [|now subst o]. pose proof (finish_sizeI p p1 HI EF) as ((H1 & H2) & H3 & H4).
    destruct (part_action name2cp ty m) as [[|name tenc|i b64]|e] eqn:EA.
    - now subst o.
    - subst o. destruct (field_step reg st name tenc m p1 payload) as [p2|e] eqn:E; [|easy].
      destruct (field_held _ _ _ _ _ _ _ _ E H4) as (E1 & E2 & E3). split; [|lia]. split; [now rewrite E1|]. now rewrite E2.
    - destruct (new_files mk_temp i (p_hs p1)) as [hs|e] eqn:EN; [|now subst o].
      destruct HS as (r & HF & ->). destruct r as [hc|e]; [|easy].
      split; [split; cbn [p_files p_old p_hs p_counters]; [easy|intros _]|].
      + apply (fed_aligned mk_temp _ _ _ _ _ HF hc eq_refl). cbn. now apply (new_files_aligned mk_temp Hmk i (p_hs p1)).
      + unfold held, pending in *. cbn [p_post p_files p_old p_counters]. rewrite H4 in H3.
        pose proof (fed_top _ _ _ _ _ HF hc 0 eq_refl) as HT. cbn [snd] in HT. rewrite list_max_zeros in HT. specialize (HT (le_n 0)).
        destruct (fi_field i); lia.
    - now subst o.
  Qed.

  Lemma block_length D r t af : block D r t af -> length t + length (odef af) <= length r.
  Proof.
    intros H. inversion H as [u v [Ho Hm] E1 E2|Ho E1 E2]; subst; cbn [odef]; [|cbn; lia].
    rewrite !app_length. pose proof (trim_eol_length u). lia.
  Qed.
  Lemma parses_held reg name2cp st D r p o : parses reg name2cp mk_temp st D r p o -> sizeI p ->
    forall p', o = Ok p' -> sizeI p' /\ held p' <= held p + length r.
  Proof.
    intros HP. induction HP as [p|r t af p e Hr Hb HS|r t af p p1 o Hr Hb HS HP IH|r t af p p1 o Hr Hb HS HP IH
      |r t af p p1 k o Hr Hb HS Hk HP IH]; intros Hp p' E; try easy.
    - injection E as <-. split; [easy|lia].
    - apply step_sizeI in HS as [S1 S2]; [|easy]. destruct (IH S1 p' E). pose proof (block_length _ _ _ _ Hb). split; [easy|lia].
    - apply step_sizeI in HS as [S1 S2]; [|easy]. destruct (IH S1 p' E). pose proof (block_length _ _ _ _ Hb). split; [easy|lia].
    - apply step_sizeI in HS as [S1 S2]; [|easy]. destruct (IH S1 p' E) as [I1 I2]. rewrite skipn_length in I2. split; [easy|lia].
  Qed.
End Loop.

(** ** What is kept in memory by ConvenientFileUploadHandler *)
Definition in_memory (f : ufile) : bool := match uf_kind f with InMemory _ => true | Temporary _ => false end.
Definition mem_bytes (d : dict (list ufile)) : nat :=
  list_sum (map (fun e => list_sum (map (fun x => if in_memory x then length (uf_content x) else 0) (snd e))) d).
Lemma files_append_mem name f d : mem_bytes (files_append name f d) = mem_bytes d + (if in_memory f then length (uf_content f) else 0).
Proof.
  unfold files_append, mem_bytes. set (g := fun x => if in_memory x then length (uf_content x) else 0).
  pose proof (measure_dset (fun l => list_sum (map g l)) name
    (match dget name d with Some l => l | None => [] end ++ [f]) d) as M. cbv beta in M. rewrite map_app, list_sum_app in M.
  change (list_sum (map g [f])) with (g f + 0) in M.
  destruct (dget name d) as [l|]; [fold (g f); lia|]. change (list_sum (map g [])) with 0 in M. fold (g f). lia.
Qed.
Definition olen (o : option str) : nat := match o with Some f => length f | None => 0 end.
Definition convI (M : Z) (k : nat) (c : convh) : Prop :=
  if cv_switched c then match cv_inner c with ITemp _ => True | IMem _ => False end
  else match cv_inner c with
       | IMem m => (Z.of_nat (cv_received c) <= M)%Z /\ k + olen (i_content (cv_inner c)) <= cv_received c
       | ITemp _ => False
       end.
Definition memI (M : Z) (p : pst) : Prop :=
  (Z.of_nat (mem_bytes (p_files p)) <= M)%Z /\
  exists c, p_hs p = [HConv c] /\ (length (p_counters p) = 1) /\
    match p_old p with
    | [] => convI M (mem_bytes (p_files p)) (mkConv (match cv_inner c with IMem m => IMem (mkMem (mh_activated m) (mh_info m) None) | h => h end) (cv_received c) (cv_switched c))
    | _ => convI M (mem_bytes (p_files p)) c
    end.

Section Mem.
  Context (mk_temp : str -> res unit) (M : Z) (HM : (0 <= M)%Z).

  Lemma conv_new_mem i c k c' r : conv_new_file mk_temp i c = (r, c') -> r = Ok tt \/ r = Err StopFutureHandlers ->
    convI M k (mkConv (match cv_inner c with IMem m => IMem (mkMem (mh_activated m) (mh_info m) None) | h => h end) (cv_received c) (cv_switched c)) ->
    convI M k c'.
  Proof.
    unfold conv_new_file, convI. destruct c as [[[a j w]|[j w]] n sw]; cbn.
    - destruct a as [[|]|]; cbn; intros E; injection E as <- <-; cbn; intros [H|H]; destruct sw; cbn; try easy.
    - unfold temp_new_file. destruct (mk_temp _) as [u|e]; cbn; intros E; injection E as <- <-; cbn; intros [H|H]; destruct sw; easy.
  Qed.
  Lemma conv_receive_mem d c r c' k : conv_receive mk_temp (Some M) d c = (Ok r, c') -> convI M k c -> convI M k c'.
  Proof.
    unfold conv_receive, convI. destruct c as [h n sw]; cbn [cv_switched cv_received cv_inner]. destruct sw; cbn [negb andb].
    - destruct h as [m|t]; [easy|]. cbn. unfold temp_receive. destruct (th_file t); [|easy]. intros E _. injection E as <- <-. easy.
    - destruct h as [m|t]; [|easy]. destruct (le_max _ _) eqn:EL; cbn [negb].
      + cbn in EL. cbn [cv_inner inner_receive]. unfold mem_receive. destruct m as [[[|]|] j [w|]]; cbn; try easy;
          intros E [H1 H2]; injection E as <- <-; cbn in *; rewrite ?app_length; lia.
      + destruct (conv_switch mk_temp _) as [c1|e] eqn:ES; [|easy]. unfold conv_switch in ES.
        destruct (inner_complete _ _) as [[f|]|e]; cbn [bind] in ES; try easy. destruct (inner_info _) as [i|]; [|easy].
        unfold temp_new_file in ES. destruct (mk_temp _) as [u|e]; [|easy]. cbn in ES. injection ES as <-. cbn.
        intros E _. injection E as <- <-. easy.
  Qed.
  Lemma feed_mem d c cs hc' k : feed mk_temp (Some M) d [HConv c] cs = Ok hc' -> length cs = 1 -> convI M k c ->
    exists c', fst hc' = [HConv c'] /\ length (snd hc') = 1 /\ convI M k c'.
  Proof.
    destruct cs as [|x [|y cs]]; try easy. cbn [feed h_receive]. destruct (conv_receive mk_temp (Some M) d c) as [[r|e] c'] eqn:E; [|easy].
    intros HF _ HC. apply (conv_receive_mem _ _ _ _ k) in E; [|easy].
    destruct r as [x0|]; cbn in HF; injection HF as <-; now exists c'.
  Qed.
  Lemma fed_mem b t hc o k : fed mk_temp (Some M) b t hc o -> forall hc' c, o = Ok hc' -> fst hc = [HConv c] -> length (snd hc) = 1 ->
    convI M k c -> exists c', fst hc' = [HConv c'] /\ length (snd hc') = 1 /\ convI M k c'.
  Proof.
    induction 1 as [b hc|x rest hc hc1 o HF HR IH|x rest hc e HF|x rest y hc hc1 o Hmod HD HF HR IH
                   |x rest y hc e Hmod HD HF|x rest hc e Hmod HD|rest hc Hmod]; intros hc' c E H1 H2 HC; try easy.
    - injection E as <-. now exists c.
    - rewrite H1 in HF. destruct (feed_mem _ _ _ _ k HF H2 HC) as (c1 & A1 & A2 & A3). now apply (IH hc' c1 E A1 A2).
    - rewrite H1 in HF. destruct (feed_mem _ _ _ _ k HF H2 HC) as (c1 & A1 & A2 & A3). now apply (IH hc' c1 E A1 A2).
  Qed.

  Lemma finish_memI p p1 : memI M p -> finish_file p = Ok p1 -> memI M p1 /\ p_old p1 = [].
  Proof.
    intros (H1 & c & H2 & H3 & H4). unfold finish_file. destruct (p_old p) as [|x n] eqn:EO.
    - intros E. injection E as <-. split; [|easy]. split; [easy|]. exists c. now rewrite EO.
    - rewrite H2. destruct (p_counters p) as [|k [|]]; try easy. cbn [file_complete h_complete].
      destruct (inner_complete k (cv_inner c)) as [o|e] eqn:EI; cbn [bind]; [|easy].
      set (files' := match o with Some f => if file_truthy f then files_append (x :: n) f (p_files p) else p_files p | None => p_files p end).
      intros E. assert (Ep : p1 = mkP (p_post p) files' [] [k] [HConv c] (p_bytes p) (p_keys p)).
      { unfold files'. destruct o as [f|]; [destruct (file_truthy f)|]; cbn [bind] in E; now injection E as <-. }
      clear E. subst p1. split; [|easy]. unfold memI. cbn [p_files p_hs p_counters p_old].
      assert (HB : mem_bytes files' = mem_bytes (p_files p) \/
        exists m, cv_inner c = IMem m /\ mem_bytes files' = mem_bytes (p_files p) + olen (i_content (cv_inner c))).
      { unfold files'. destruct o as [f|]; [|now left]. destruct (file_truthy f); [|now left]. rewrite files_append_mem.
        destruct (inner_complete_content _ _ _ EI) as [-> _]. cbn [olen]. destruct (cv_inner c) as [m|t].
        - destruct (in_memory f); [right; now exists m|left; lia].
        - left. assert (in_memory f = false) as ->; [|lia]. cbn in EI. unfold temp_complete in EI.
          destruct (th_file t); [|easy]. destruct (th_info t); [|easy]. now injection EI as <-. }
      unfold convI in *. cbn [cv_switched cv_inner cv_received]. destruct (cv_switched c) eqn:ESW.
      + destruct (cv_inner c) as [m|t] eqn:EC; [easy|]. destruct HB as [->|(m & ? & _)]; [|easy]. split; [easy|]. exists c. rewrite EC, ESW. easy.
      + destruct (cv_inner c) as [m|t] eqn:EC; [|easy]. destruct H4 as [H4 H5]. split.
        * destruct HB as [->|(m1 & ? & ->)]; lia.
        * exists c. rewrite EC, ESW. repeat split; try easy. unfold i_content at 1. cbn [mh_activated mh_file].
          replace (olen _) with 0 by (destruct (mh_activated m) as [[|]|]; reflexivity).
          destruct HB as [->|(m1 & ? & ->)]; lia.
  Qed.
  Lemma step_memI reg name2cp st p t o : ms_fmem st = Some M -> memI M p -> step reg name2cp mk_temp st p t o ->
    match o with ODone p' | OSkip p' => memI M p' | OErr _ => True end.
  Proof.
    intros Hst HI HS. unfold step in HS. destruct (classify reg t) as [[[ty m] payload]|e] eqn:EC; [|now subst o].
    destruct (finish_file p) as [p1|e] eqn:EF; [|now subst o]. destruct (finish_memI p p1 HI EF) as [HI1 HO].
    destruct (part_action name2cp ty m) as [[|name tenc|i b64]|e] eqn:EA.
    - now subst o.
    - subst o. destruct (field_step reg st name tenc m p1 payload) as [p2|e] eqn:E; [|easy]. revert E. unfold field_step.
      destruct (match ms_dnum st with Some n => _ | None => false end); [easy|].
      match goal with |- context [@bind str pst ?x _] => destruct x as [raw|e] end; cbn [bind]; [|easy].
      match goal with |- context [@bind str pst ?x _] => destruct x as [data|e] end; cbn [bind]; [|easy].
      destruct (match ms_dmem st with Some n => _ | None => false end); [easy|].
      destruct (post_append _ _ _ _ _) as [post|e]; cbn [bind]; [|easy]. intros E. injection E as <-. exact HI1.
    - destruct HI1 as (H1 & c & H2 & H3 & H4). rewrite HO in H4. rewrite H2 in HS. cbn [new_files h_new_file] in HS.
      destruct (conv_new_file mk_temp i c) as [r c1] eqn:EN.
      assert (HX : (exists r0, o = OErr r0) \/ ((r = Ok tt \/ r = Err StopFutureHandlers) /\
        exists r, fed mk_temp (ms_fmem st) b64 payload ([HConv c1], [0]) r /\
         o = match r with Err e => OErr e | Ok hc => ODone (mkP (p_post p1) (p_files p1) (fi_field i) (snd hc) (fst hc) (p_bytes p1) (p_keys p1)) end)).
      { destruct r as [[]|e]; [right; split; [now left|exact HS]|]. destruct e; try (left; eexists; exact HS). right; split; [now right|exact HS]. }
      clear HS. destruct HX as [(r0 & ->)|(Hr & r0 & HF & ->)]; [easy|]. destruct r0 as [hc|e]; [|easy]. rewrite Hst in HF.
      pose proof (conv_new_mem i c (mem_bytes (p_files p1)) c1 r EN Hr H4) as HC.
      destruct (fed_mem _ _ _ _ (mem_bytes (p_files p1)) HF hc c1 eq_refl eq_refl eq_refl HC) as (c2 & A1 & A2 & A3).
      split; [exact H1|]. cbn [p_hs p_counters p_old p_files]. exists c2. split; [exact A1|]. split; [exact A2|].
      destruct (fi_field i); [|exact A3]. unfold convI in *. cbn [cv_switched cv_inner cv_received].
      destruct (cv_switched c2); [now destruct (cv_inner c2)|]. destruct (cv_inner c2) as [m2|t2]; [|easy].
      split; [easy|]. cbn. destruct (mh_activated m2) as [[|]|]; cbn; lia.
    - now subst o.
  Qed.
End Mem.

(** ** Handlers that decide once: MemoryFileUploadHandler and TemporaryFileUploadHandler *)
Definition decided (b : bool) (h : handler) : Prop :=
  match h with HMem m => mh_activated m = Some b | HTemp _ => True | HConv _ => False end.
Definition diskI (p : pst) : Prop :=
  mem_bytes (p_files p) = 0 /\ Forall (decided false) (p_hs p).

Lemma mem_le_file d : mem_bytes d <= file_bytes d.
Proof.
  unfold mem_bytes, file_bytes. induction d as [|[k l] d IH]; [easy|]. cbn [map list_sum fold_right snd].
  change (fold_right Nat.add 0) with list_sum. apply Nat.add_le_mono; [|exact IH]. clear.
  induction l as [|f l IH]; [easy|]. cbn [map list_sum fold_right]. change (fold_right Nat.add 0) with list_sum. destruct (in_memory f); lia.
Qed.
Section Disk.
  Context (mk_temp : str -> res unit) (max : option Z).
  Lemma new_files_disk i : forall hs hs', new_files mk_temp i hs = Ok hs' -> Forall (decided false) hs -> Forall (decided false) hs'.
  Proof.
    induction hs as [|h hs IH]; intros hs' H HA; cbn [new_files] in H; [now injection H as <-|]. inversion HA as [|? ? H1 H2]; subst.
    destruct (h_new_file mk_temp i h) as [r h'] eqn:E.
    assert (H1' : decided false h').
    { destruct h as [m|t|c]; cbn in E; [| |easy].
      - unfold mem_new_file in E. cbn in H1. rewrite H1 in E. now injection E as <- <-.
      - unfold temp_new_file in E. destruct (mk_temp _); now injection E as <- <-. }
    destruct r as [u|e].
    - destruct (new_files mk_temp i hs) as [r|]; cbn [bind] in H; [|easy]. injection H as <-. constructor; [easy|now apply IH].
    - destruct e; try easy. injection H as <-. now constructor.
  Qed.
  Lemma feed_disk : forall hs d cs hc', feed mk_temp max d hs cs = Ok hc' -> Forall (decided false) hs -> Forall (decided false) (fst hc').
  Proof.
    induction hs as [|h hs IH]; intros d cs hc' H HA; cbn [feed] in H; [now injection H as <-|]. inversion HA as [|? ? H1 H2]; subst.
    destruct cs as [|c cs]; [now injection H as <-|]. destruct (h_receive mk_temp max d h) as [r h'] eqn:E.
    assert (H1' : decided false h').
    { destruct h as [m|t|cv]; cbn in E; [| |easy].
      - unfold mem_receive in E. cbn in H1. rewrite H1 in E. now injection E as <- <-.
      - unfold temp_receive in E. destruct (th_file t); now injection E as <- <-. }
    destruct r as [[x|]|e]; [| |easy].
    - destruct (feed mk_temp max x hs cs) as [hc|e] eqn:EF; cbn [bind] in H; [|easy]. injection H as <-. constructor; [easy|now apply (IH x cs)].
    - injection H as <-. now constructor.
  Qed.
  Lemma fed_disk b t hc o : fed mk_temp max b t hc o -> forall hc', o = Ok hc' -> Forall (decided false) (fst hc) -> Forall (decided false) (fst hc').
  Proof.
    induction 1 as [b hc|c rest hc hc1 o HF HR IH|c rest hc e HF|c rest x hc hc1 o Hmod HD HF HR IH
                   |c rest x hc e Hmod HD HF|c rest hc e Hmod HD|rest hc Hmod]; intros hc' E HA; try easy.
    - now injection E as <-.
    - apply IH; [easy|]. now apply (feed_disk _ _ _ _ HF).
    - apply IH; [easy|]. now apply (feed_disk _ _ _ _ HF).
  Qed.
  Lemma file_complete_disk name : forall hs cs files files', file_complete name hs cs files = Ok files' ->
    Forall (decided false) hs -> mem_bytes files' = mem_bytes files.
  Proof.
    induction hs as [|h hs IH]; intros cs files files' H HA; cbn [file_complete] in H; [now injection H as <-|]. inversion HA as [|? ? H1 H2]; subst.
    destruct cs as [|c cs]; [now injection H as <-|]. destruct (h_complete c h) as [[f|]|e] eqn:E; cbn [bind] in H; [| |easy]; [|now apply (IH cs)].
    destruct (file_truthy f); [|now apply (IH cs)]. injection H as <-. rewrite files_append_mem.
    assert (in_memory f = false) as ->; [|lia]. destruct h as [m|t|cv]; cbn in E, H1; [| |easy].
    - unfold mem_complete in E. now rewrite H1 in E.
    - unfold temp_complete in E. destruct (th_file t); [|easy]. destruct (th_info t); [|easy]. now injection E as <-.
  Qed.
  Lemma step_diskI reg name2cp st p t o : diskI p -> step reg name2cp mk_temp st p t o -> ms_fmem st = max ->
    match o with ODone p' | OSkip p' => diskI p' | OErr _ => True end.
  Proof.
    intros HI HS Hm. unfold step in HS. destruct (classify reg t) as [[[ty m] payload]|e] eqn:EC; [|now subst o].
    destruct (finish_file p) as [p1|e] eqn:EF; [|now subst o].
    assert (HI1 : diskI p1).
    { unfold finish_file in EF. destruct (p_old p) as [|x n]; [now injection EF as <-|]. destruct HI as [H1 H2].
      destruct (file_complete _ _ _ _) as [files|e] eqn:E; cbn [bind] in EF; [|easy]. injection EF as <-. split; [|easy]. cbn [p_files].
      now rewrite (file_complete_disk _ _ _ _ _ E H2). }
    destruct (part_action name2cp ty m) as [[|name tenc|i b64]|e] eqn:EA.
    - now subst o.
    - subst o. destruct (field_step reg st name tenc m p1 payload) as [p2|e] eqn:E; [|easy]. revert E. unfold field_step.
      destruct (match ms_dnum st with Some n => _ | None => false end); [easy|].
      match goal with |- context [@bind str pst ?x _] => destruct x as [raw|e] end; cbn [bind]; [|easy].
      match goal with |- context [@bind str pst ?x _] => destruct x as [data|e] end; cbn [bind]; [|easy].
      destruct (match ms_dmem st with Some n => _ | None => false end); [easy|].
      destruct (post_append _ _ _ _ _) as [post|e]; cbn [bind]; [|easy]. intros E. injection E as <-. exact HI1.
    - destruct (new_files mk_temp i (p_hs p1)) as [hs|e] eqn:EN; [|now subst o].
      destruct HS as (r & HF & ->). destruct r as [hc|e]; [|easy]. destruct HI1 as [H1 H2]. split; [exact H1|]. cbn [p_hs].
      rewrite Hm in HF. apply (fed_disk _ _ _ _ HF hc eq_refl). cbn. now apply (new_files_disk i (p_hs p1)).
    - now subst o.
  Qed.
End Disk.
