(** * What holds of every multipart parse, whatever the body and the handlers
    (claims C24, C25, C28, C32, C37) *)
From Coq Require Import Lia List.
From Verif Require Import Py PyFacts PyDict Spec StreamModel CodecModel QueryModel Base64Model HeaderModel HeaderSpec HeaderFacts
  BoundaryModel BoundarySpec BoundaryFacts UploadModel MultipartModel MultipartSem MultipartFacts
  FormSpec UploadFacts.

(** ** Invariants *)
Lemma parses_inv reg name2cp mk_temp st D (I : pst -> Prop) :
  (forall p t o, I p -> step reg name2cp mk_temp st p t o ->
     match o with ODone p' | OSkip p' => I p' | OErr _ => True end) ->
  forall r p o, parses reg name2cp mk_temp st D r p o -> I p -> forall p', o = Ok p' -> I p'.
Proof.
  intros HI r p o HP. induction HP as [p|r t af p e Hr Hb HS|r t af p p1 o Hr Hb HS HP IH|r t af p p1 o Hr Hb HS HP IH
    |r t af p p1 k o Hr Hb HS Hk HP IH]; intros Hp p' E; try easy.
  - now injection E as <-.
  - apply IH; [|easy]. now specialize (HI p t _ Hp HS).
  - apply IH; [|easy]. now specialize (HI p t _ Hp HS).
  - apply IH; [|easy]. now specialize (HI p t _ Hp HS).
Qed.
(** an exception comes from one step, started in a state satisfying the invariant *)
Lemma parses_err reg name2cp mk_temp st D (I : pst -> Prop) (Q : exn -> Prop) :
  (forall p t o, I p -> step reg name2cp mk_temp st p t o ->
     match o with ODone p' | OSkip p' => I p' | OErr e => Q e end) ->
  forall r p o, parses reg name2cp mk_temp st D r p o -> I p -> forall e, o = Err e -> Q e.
Proof.
  intros HI r p o HP. induction HP as [p|r t af p e Hr Hb HS|r t af p p1 o Hr Hb HS HP IH|r t af p p1 o Hr Hb HS HP IH
    |r t af p p1 k o Hr Hb HS Hk HP IH]; intros Hp e0 E; try easy.
  - injection E as <-. now specialize (HI p t _ Hp HS).
  - apply IH; [|easy]. now specialize (HI p t _ Hp HS).
  - apply IH; [|easy]. now specialize (HI p t _ Hp HS).
  - apply IH; [|easy]. now specialize (HI p t _ Hp HS).
Qed.

(** ** Files *)
Lemma getl_dset {A} k k' (l : list A) d : getl k (dset k' l d) = if seqb k k' then l else getl k d.
Proof. unfold getl. rewrite dget_dset. now destruct (seqb k k'). Qed.

Definition good_file (f : ufile) : Prop := exists i, made_from f i /\ ~ In 92%N (fi_name i) /\ uf_size f <> 0.
Definition filesI (p : pst) : Prop :=
  (forall k f, In f (getl k (p_files p)) -> good_file f) /\
  (forall i, In i (hs_infos (p_hs p)) -> ~ In 92%N (fi_name i)).

Lemma file_complete_good name : forall hs cs files files', file_complete name hs cs files = Ok files' ->
  (forall i, In i (hs_infos hs) -> ~ In 92%N (fi_name i)) ->
  (forall k f, In f (getl k files) -> good_file f) -> forall k f, In f (getl k files') -> good_file f.
Proof.
  induction hs as [|h hs IH]; intros cs files files' H Hi Hf; cbn [file_complete] in H.
  - now injection H as <-.
  - destruct cs as [|c cs]; [now injection H as <-|].
    destruct (h_complete c h) as [[f|]|e] eqn:E; cbn [bind] in H; [| |easy].
    + destruct (file_truthy f) eqn:ET.
      * injection H as <-. intros k g. unfold files_append. rewrite getl_dset.
        destruct (seqb k name) eqn:Ek; [|apply Hf]. apply seqb_eq in Ek as ->. intros [Hg|[<-|[]]]%in_app_or; [now apply (Hf name)|].
        destruct (h_complete_made c h f E) as (i & Hin & Hm & Hsz). exists i. split; [easy|]. split.
        -- apply Hi. cbn. apply in_or_app. now left.
        -- unfold file_truthy in ET. now destruct (Nat.eqb_spec (uf_size f) 0).
      * apply (IH cs files files' H); [|easy]. intros i Hin. apply Hi. cbn. apply in_or_app. now right.
    + apply (IH cs files files' H); [|easy]. intros i Hin. apply Hi. cbn. apply in_or_app. now right.
Qed.

Lemma finish_filesI p p1 : filesI p -> finish_file p = Ok p1 -> filesI p1.
Proof.
  intros [H1 H2]. unfold finish_file. destruct (p_old p) as [|x n]; [intros E; injection E as <-; easy|].
  destruct (file_complete _ _ _ _) as [files|e] eqn:E; cbn [bind]; [|easy]. intros E2. injection E2 as <-.
  split; cbn; [|easy]. now apply (file_complete_good _ _ _ _ _ E).
Qed.

Lemma part_action_name name2cp ty m i b : part_action name2cp ty m = Ok (AFile i b) -> ~ In 92%N (fi_name i).
Proof.
  unfold part_action. destruct (dget CDISP m) as [[v disp]|]; [|easy]. destruct (dget !"name" disp) as [raw|]; [|easy].
  destruct (to_native (pstrip raw)) as [name|]; cbn [bind]; [|easy]. destruct ty; try easy.
  unfold filename_of. destruct (dget !"filename" disp) as [f|]; [|easy]. destruct (pnonempty f); [|easy].
  destruct (to_native f) as [f1|]; cbn [bind]; [|easy]. destruct (unescape_entities name2cp f1) as [f2|]; cbn [bind]; [|easy].
  pose proof (ie_sanitize_back f2) as HB. destruct (ie_sanitize f2) as [|y n]; [easy|]. intros H. injection H as <- _. exact HB.
Qed.

Lemma step_filesI reg name2cp mk_temp st p t o : filesI p -> step reg name2cp mk_temp st p t o ->
  match o with ODone p' | OSkip p' => filesI p' | OErr _ => True end.
Proof.
  intros HI HS. unfold step in HS. destruct (classify reg t) as [[[ty m] payload]|e]; [|now subst o].
  destruct (finish_file p) as [p1|e] eqn:EF; [|now subst o]. pose proof (finish_filesI p p1 HI EF) as [H1 H2].
  destruct (part_action name2cp ty m) as [[|name tenc|i b64]|e] eqn:EA.
  - now subst o.
  - subst o. unfold field_step. destruct (match ms_dnum st with Some n => _ | None => false end); [easy|].
    match goal with |- context [@bind str pst ?x _] => destruct x as [raw|e] end; cbn [bind]; [|easy].
    match goal with |- context [@bind str pst ?x _] => destruct x as [data|e] end; cbn [bind]; [|easy].
    destruct (match ms_dmem st with Some n => _ | None => false end); [easy|].
    destruct (post_append _ _ _ _ _) as [post|e]; cbn [bind]; [|easy]. now split.
  - destruct (new_files mk_temp i (p_hs p1)) as [hs|e] eqn:EN; [|now subst o].
    destruct HS as (r & HF & ->). destruct r as [hc|e]; [|easy]. split; cbn; [easy|].
    intros j Hj. apply (fed_infos _ _ _ _ _ _ HF hc eq_refl) in Hj. cbn in Hj.
    destruct (new_files_infos _ _ _ _ EN j Hj) as [->|Hj2]; [|now apply H2].
    now apply (part_action_name name2cp ty m i b64).
  - now subst o.
Qed.

(** ** Counting fields and bytes *)
Definition entries (d : dict (list entry)) : nat := list_sum (map (fun e => length (snd e)) d).
Definition data_bytes (d : dict (list entry)) : nat :=
  list_sum (map (fun e => list_sum (map (fun x => length (en_data x)) (snd e))) d).

Lemma measure_dset {A} (g : list A -> nat) k l (d : dict (list A)) :
  list_sum (map (fun e => g (snd e)) (dset k l d)) + (match dget k d with Some l0 => g l0 | None => 0 end) =
  list_sum (map (fun e => g (snd e)) d) + g l.
Proof.
  induction d as [|[k1 l1] d IH]; [cbn; lia|]. cbn [dset dget map list_sum fold_right snd]. change (fold_right Nat.add 0) with list_sum. destruct (seqb k k1); cbn [map list_sum fold_right snd] in *; change (fold_right Nat.add 0) with list_sum in *; lia.
Qed.

Lemma post_append_measure reg enc name e d d' : post_append reg enc name e d = Ok d' ->
  entries d' <= entries d + 1 /\ data_bytes d' <= data_bytes d + length (en_data e).
Proof.
  unfold post_append. destruct (bytes_to_text reg enc (PB name)) as [k|]; cbn [bind]; [|easy].
  assert (HA : forall d0, entries d0 = entries d -> data_bytes d0 = data_bytes d ->
    Ok (match dget (key_of k) d0 with Some l => dset (key_of k) (l ++ [e]) d0 | None => d0 end) = Ok d' ->
    entries d' <= entries d + 1 /\ data_bytes d' <= data_bytes d + length (en_data e)).
  { intros d0 H1 H2 H. injection H as <-. destruct (dget (key_of k) d0) as [l|] eqn:E; [|lia].
    pose proof (measure_dset (@length entry) (key_of k) (l ++ [e]) d0) as M1.
    pose proof (measure_dset (fun l => list_sum (map (fun x => length (en_data x)) l)) (key_of k) (l ++ [e]) d0) as M2.
    rewrite E in M1, M2. rewrite app_length in M1. rewrite map_app, list_sum_app in M2. cbn in M1, M2.
    unfold entries, data_bytes in *. lia. }
  destruct (dmem (key_of k) d) eqn:EM; cbn [bind]; [now apply HA|].
  destruct (bytes_to_text reg enc k) as [k2|]; cbn [bind]; [|easy].
  destruct (dget (key_of k2) d) as [l|] eqn:E2.
  - (* the second conversion gives another key that is present: its list is reset *)
    intros H. pose proof (measure_dset (@length entry) (key_of k2) [] d) as M1.
    pose proof (measure_dset (fun l => list_sum (map (fun x => length (en_data x)) l)) (key_of k2) [] d) as M2.
    rewrite E2 in M1, M2. cbn in M1, M2. injection H as <-.
    destruct (dget (key_of k) (dset (key_of k2) [] d)) as [l'|] eqn:E3.
    + pose proof (measure_dset (@length entry) (key_of k) (l' ++ [e]) (dset (key_of k2) [] d)) as M3.
      pose proof (measure_dset (fun l => list_sum (map (fun x => length (en_data x)) l)) (key_of k) (l' ++ [e]) (dset (key_of k2) [] d)) as M4.
      rewrite E3 in M3, M4. rewrite app_length in M3. rewrite map_app, list_sum_app in M4. cbn in M3, M4.
      unfold entries, data_bytes in *. lia.
    + unfold entries, data_bytes in *. lia.
  - apply HA.
    + pose proof (measure_dset (@length entry) (key_of k2) [] d) as M1. rewrite E2 in M1. cbn in M1. unfold entries. lia.
    + pose proof (measure_dset (fun l => list_sum (map (fun x => length (en_data x)) l)) (key_of k2) [] d) as M2.
      rewrite E2 in M2. cbn in M2. unfold data_bytes. lia.
Qed.

Lemma a2b_length : forall s st, length (fst (a2b_loop s st)) <= length s.
Proof.
  induction s as [|c s IH]; intros st; cbn [a2b_loop]; [cbn; lia|].
  destruct (N.eqb c pad).
  - destruct (_ || _)%bool; [specialize (IH st); cbn; lia|cbn; lia].
  - destruct (b64val c) as [v|]; [|specialize (IH st); cbn; lia].
    pose proof (IH (snd (b64_shift v st))) as HH. unfold b64_shift in *.
    destruct (N.leb 8 _); cbn [snd] in HH; destruct (a2b_loop s _); cbn in *; lia.
Qed.
Lemma b64decode_length s d : b64decode s = Ok d -> length d <= length s.
Proof.
  unfold b64decode. pose proof (a2b_length s b64_init). destruct (a2b_loop s b64_init) as [out lb]. cbn in *.
  destruct (N.eqb lb 0); [|easy]. intros E. now injection E as <-.
Qed.

Definition countI (st : mset) (p : pst) : Prop :=
  (Z.of_nat (entries (p_post p)) <= p_keys p)%Z /\ (Z.of_nat (data_bytes (p_post p)) <= p_bytes p)%Z /\
  (0 <= p_keys p)%Z /\ (0 <= p_bytes p)%Z /\
  match ms_dnum st with Some n => (p_keys p <= Z.max 0 n)%Z | None => True end /\
  match ms_dmem st with Some n => (p_bytes p <= Z.max 0 n)%Z | None => True end.

Lemma finish_same p p1 : finish_file p = Ok p1 -> p_post p1 = p_post p /\ p_keys p1 = p_keys p /\ p_bytes p1 = p_bytes p /\ p_hs p1 = p_hs p.
Proof.
  unfold finish_file. destruct (p_old p); [intros H; now injection H as <-|].
  destruct (file_complete _ _ _ _); cbn [bind]; [|easy]. intros H. now injection H as <-.
Qed.

Lemma field_countI reg st name tenc m p payload p' : countI st p ->
  field_step reg st name tenc m p payload = Ok p' -> countI st p'.
Proof.
  intros (H1 & H2 & H3 & H4 & H5 & H6). unfold field_step.
  destruct (match ms_dnum st with Some n => Z.ltb n (p_keys p + 1) | None => false end) eqn:EN; [easy|].
  match goal with |- context [@bind str pst ?x _] => destruct x as [raw|e] end; cbn [bind]; [|easy].
  assert (HD : forall d, (if is_b64enc tenc then b64decode raw else Ok raw) = Ok d -> length d <= length raw).
  { intros d. destruct (is_b64enc tenc); [apply b64decode_length|]. intros E. now injection E as <-. }
  match goal with |- context [@bind str pst ?x _] => destruct x as [data|e] eqn:ED end; cbn [bind]; [|easy].
  specialize (HD data eq_refl).
  destruct (match ms_dmem st with Some n => _ | None => false end) eqn:EM; [easy|].
  destruct (post_append _ _ _ _ _) as [post|e] eqn:EP; cbn [bind]; [|easy]. intros E. injection E as <-.
  apply post_append_measure in EP as [P1 P2]. cbn in P2. unfold countI, zlen in *. cbn [p_post p_keys p_bytes].
  repeat split; try lia.
  - destruct (ms_dnum st) as [n|]; [|easy]. lia.
  - destruct (ms_dmem st) as [n|]; [|easy]. lia.
Qed.

Lemma step_countI reg name2cp mk_temp st p t o : countI st p -> step reg name2cp mk_temp st p t o ->
  match o with ODone p' | OSkip p' => countI st p' | OErr _ => True end.
Proof.
  intros HI HS. unfold step in HS. destruct (classify reg t) as [[[ty m] payload]|e]; [|now subst o].
  destruct (finish_file p) as [p1|e] eqn:EF; [|now subst o].
  assert (HI1 : countI st p1).
  { destruct (finish_same p p1 EF) as (E1 & E2 & E3 & _). unfold countI in *. now rewrite E1, E2, E3. }
  destruct (part_action name2cp ty m) as [[|name tenc|i b64]|e] eqn:EA.
  - now subst o.
  - subst o. destruct (field_step reg st name tenc m p1 payload) as [p2|e] eqn:E; [|easy].
    now apply (field_countI _ _ _ _ _ _ _ _ HI1 E).
  - destruct (new_files mk_temp i (p_hs p1)) as [hs|e] eqn:EN; [|now subst o].
    destruct HS as (r & HF & ->). destruct r as [hc|e]; [|easy]. exact HI1.
  - now subst o.
Qed.

(** ** Exceptions *)
(** what the parser itself may raise, apart from failures to create a temporary file *)
Definition may_raise (st : mset) (e : exn) : Prop :=
  In e [TooManyFieldsSent; RequestDataTooBig; TypeError; AttributeError; LookupError;
        UnicodeDecodeError; UnicodeEncodeError; OverflowError] \/
  e = AssertionError /\ (exists n, ms_dmem st = Some n /\ (n < 0)%Z).

Ltac inl := cbn; repeat (first [left; reflexivity | right]).

Lemma parse_param_err reg p e : parse_param reg p = Err e -> In e [UnicodeDecodeError; LookupError; ValueError].
Proof.
  unfold parse_param. destruct (findc hequal p) as [i|]; [|easy]. unfold decode_ascii.
  destruct (ascii_only (lower _)); cbn [bind]; [|intros E; injection E as <-; inl].
  match goal with |- context [if ?b then match ?l with _ => _ end else _] => destruct b; [destruct l as [|x1 [|x2 [|x3 [|x4 xs]]]]|] end;
    cbn [bind]; try (intros E; injection E as <-; inl); try easy.
  destruct (ascii_only x3); cbn [bind]; [|intros E; injection E as <-; inl].
  destruct (ascii_only x1); cbn [bind]; [|intros E; injection E as <-; inl].
  unfold unquote. destruct (mem _ _); cbn [bind]; [|easy]. destruct (reg x1); cbn [bind]; [easy|].
  intros E; injection E as <-; inl.
Qed.
Lemma parse_params_err reg e : forall l d, parse_params reg l d = Err e -> In e [UnicodeDecodeError; LookupError; ValueError].
Proof.
  induction l as [|p l IH]; intros d; cbn [parse_params]; [easy|].
  destruct (parse_param reg p) as [nv|e1] eqn:E; cbn [bind]; [apply IH|]. intros H. injection H as <-.
  now apply (parse_param_err reg p).
Qed.
Lemma parse_header_err reg line e : parse_header reg line = Err e -> In e [UnicodeDecodeError; LookupError; ValueError].
Proof.
  unfold parse_header. rewrite parse_header_params_spec. pose proof (qsplit_nonnil false line) as HN.
  destruct (qsplit false line) as [|k pl]; [easy|]. cbn [map]. unfold decode_ascii.
  destruct (ascii_only _); cbn [bind]; [|intros E; injection E as <-; inl].
  destruct (parse_params reg (map strip pl) []) as [d|e1] eqn:E; cbn [bind]; [easy|].
  intros H. injection H as <-. now apply (parse_params_err reg e1 (map strip pl) []).
Qed.
Lemma header_meta_err reg e : forall lines ty out, header_meta reg lines ty out = Err e -> e = LookupError.
Proof.
  induction lines as [|line lines IH]; intros ty out; cbn [header_meta]; [easy|].
  destruct (part_header reg line) as [[name [value params]]|e1] eqn:E; [apply IH|].
  destruct (is_value_error e1) eqn:EV; [apply IH|]. intros H. injection H as <-.
  unfold part_header in E. destruct (parse_header reg line) as [h|e2] eqn:E2; cbn [bind] in E.
  - destruct (split1 mcolon (fst h)) as [[a b]|]; [easy|]. injection E as <-. easy.
  - injection E as <-. apply parse_header_err in E2. cbn in E2. destruct E2 as [<-|[<-|[<-|[]]]]; easy.
Qed.
Lemma classify_err reg t e : classify reg t = Err e -> e = LookupError.
Proof.
  unfold classify. destruct (find crlfcrlf _) as [i|]; [|easy].
  destruct (header_meta _ _ _ _) as [h|e1] eqn:E; cbn [bind]; [easy|]. intros H. injection H as <-.
  now apply header_meta_err in E.
Qed.

Lemma inner_complete_err c h e : inner_complete c h = Err e -> e = AttributeError.
Proof. destruct h as [[[[]|] [i|] [w|]]|[[i|] [w|]]]; cbn; intros H; now try injection H as <-. Qed.
Lemma h_complete_err c h e : h_complete c h = Err e -> e = AttributeError.
Proof.
  destruct h as [m|t|cv]; cbn [h_complete]; [apply (inner_complete_err c (IMem m))|apply (inner_complete_err c (ITemp t))|apply inner_complete_err].
Qed.
Lemma file_complete_err name e : forall hs cs files, file_complete name hs cs files = Err e -> e = AttributeError.
Proof.
  induction hs as [|h hs IH]; intros cs files; cbn [file_complete]; [easy|]. destruct cs as [|c cs]; [easy|].
  destruct (h_complete c h) as [[f|]|e1] eqn:E; cbn [bind].
  - destruct (file_truthy f); [easy|]. apply IH.
  - apply IH.
  - intros H. injection H as <-. now apply h_complete_err in E.
Qed.
Lemma finish_err p e : finish_file p = Err e -> e = AttributeError.
Proof.
  unfold finish_file. destruct (p_old p); [easy|]. destruct (file_complete _ _ _ _) as [f|e1] eqn:E; cbn [bind]; [easy|].
  intros H. injection H as <-. now apply file_complete_err in E.
Qed.

Lemma replace_entity_err name2cp t e : replace_entity name2cp t = Err e -> e = OverflowError.
Proof.
  unfold replace_entity. match goal with |- context [match ?x with Some c => _ | None => Ok _ end] => destruct x as [c|] end; [|easy].
  unfold py_chr. destruct (N.leb _ c); cbn [bind]; [intros E; now injection E as <-|]. now destruct (N.ltb c 256).
Qed.
Lemma unescape_loop_err name2cp e : forall f s, length s < f -> unescape_loop f name2cp s = Err e -> e = OverflowError.
Proof.
  induction f as [|f IH]; intros s Hl; [lia|]. cbn [unescape_loop]. destruct s as [|c r]; [easy|]. cbn in Hl.
  assert (HR : forall X, length X < f -> forall (g : str -> str), (let* b := unescape_loop f name2cp X in Ok (g b)) = Err e -> e = OverflowError).
  { intros X HX g. destruct (unescape_loop f name2cp X) as [b|e1] eqn:E; cbn [bind]; [easy|]. intros H. injection H as <-. now apply (IH X). }
  destruct (if N.eqb c eamp then split1 hsemi r else None) as [[t rest]|] eqn:E0.
  - assert (length rest < length r).
    { destruct (N.eqb c eamp); [|easy]. unfold split1 in E0. destruct (findc hsemi r) as [i|] eqn:Ei; [|easy].
      assert (E1 : rest = skipn (S i) r) by congruence. rewrite E1. pose proof (skipn_length (S i) r). destruct r; [easy|]. cbn [length] in *. lia. }
    destruct (ent_text t); [|now apply (HR r); lia].
    destruct (replace_entity name2cp t) as [a|e1] eqn:E; cbn [bind]; [now apply (HR rest); lia|].
    intros H0. injection H0 as <-. now apply replace_entity_err in E.
  - now apply (HR r); lia.
Qed.
Lemma unescape_err name2cp s e : unescape_entities name2cp s = Err e -> e = OverflowError.
Proof. apply unescape_loop_err. lia. Qed.

Lemma to_native_err p e : to_native p = Err e -> e = UnicodeEncodeError.
Proof. destruct p; cbn; [easy|]. destruct (ascii_only s); [easy|]. intros H. now injection H as <-. Qed.
Lemma part_action_err name2cp ty m e : part_action name2cp ty m = Err e -> e = UnicodeEncodeError \/ e = OverflowError.
Proof.
  unfold part_action. destruct (dget CDISP m) as [[v disp]|]; [|easy]. destruct (dget !"name" disp) as [raw|]; [|easy].
  destruct (to_native (pstrip raw)) as [name|e1] eqn:E1; cbn [bind].
  2:{ intros H. injection H as <-. left. now apply to_native_err in E1. }
  destruct ty; try easy.
  unfold filename_of. destruct (dget !"filename" disp) as [f|]; [|easy]. destruct (pnonempty f); [|easy].
  destruct (to_native f) as [f1|e2] eqn:E2; cbn [bind].
  2:{ intros H. injection H as <-. left. now apply to_native_err in E2. }
  destruct (unescape_entities name2cp f1) as [f2|e3] eqn:E3; cbn [bind].
  2:{ intros H. injection H as <-. right. now apply unescape_err in E3. }
  now destruct (ie_sanitize f2).
Qed.

Lemma b64decode_err s e : b64decode s = Err e -> e = TypeError.
Proof. unfold b64decode. destruct (a2b_loop s b64_init) as [o l]. destruct (N.eqb l 0); [easy|]. intros H. now injection H as <-. Qed.
Lemma post_append_err reg enc name x d e : post_append reg enc name x d = Err e -> e = LookupError \/ e = UnicodeDecodeError.
Proof.
  unfold post_append, bytes_to_text, encode_bytes_replace. destruct (reg enc) as [c|]; cbn [bind].
  2:{ intros H. injection H as <-. now left. }
  destruct (ascii_only name); cbn [bind]; [|intros H; injection H as <-; now right].
  match goal with |- context [dmem ?k d] => destruct (dmem k d) end; cbn [bind]; [easy|].
  destruct (ascii_only _); cbn [bind]; [easy|intros H; injection H as <-; now right].
Qed.

Lemma field_err reg st name tenc m p payload e : countI st p ->
  field_step reg st name tenc m p payload = Err e -> may_raise st e.
Proof.
  intros (H1 & H2 & H3 & H4 & H5 & H6). unfold field_step.
  destruct (match ms_dnum st with Some n => Z.ltb n (p_keys p + 1) | None => false end) eqn:EN.
  { intros E. injection E as <-. left. inl. }
  destruct (ms_dmem st) as [n|] eqn:EM.
  - destruct (Z.ltb_spec (n - p_bytes p) 0); cbn [bind].
    { intros E. injection E as <-. right. split; [easy|]. exists n. split; [easy|]. lia. }
    match goal with |- context [@bind str pst ?x _] => destruct x as [data|e1] eqn:ED end; cbn [bind].
    + destruct (Z.ltb n _); [intros E; injection E as <-; left; inl|].
      match goal with |- context [@bind _ pst ?x _] => destruct x as [post|e2] eqn:EP end; cbn [bind]; [easy|].
      intros E. injection E as <-. apply post_append_err in EP as [->| ->]; left; inl.
    + intros E. injection E as <-. destruct (is_b64enc tenc); [|easy]. apply b64decode_err in ED as ->. left. inl.
  - cbn [bind]. match goal with |- context [@bind str pst ?x _] => destruct x as [data|e1] eqn:ED end; cbn [bind].
    + match goal with |- context [@bind _ pst ?x _] => destruct x as [post|e2] eqn:EP end; cbn [bind]; [easy|].
      intros E. injection E as <-. apply post_append_err in EP as [->| ->]; left; inl.
    + intros E. injection E as <-. destruct (is_b64enc tenc); [|easy]. apply b64decode_err in ED as ->. left. inl.
Qed.

Section FileErr.
  Context (mk_temp : str -> res unit) (max : option Z).
  Definition temp_fails (e : exn) : Prop := exists s, mk_temp s = Err e.

  Lemma temp_new_err i t e t' : temp_new_file mk_temp i t = (Err e, t') -> temp_fails e.
  Proof. unfold temp_new_file. destruct (mk_temp _) eqn:E; [easy|]. intros H. injection H as <- <-. now exists (temp_suffix (fi_name i)). Qed.
  Lemma inner_new_err i h e h' : inner_new_file mk_temp i h = (Err e, h') -> e = AttributeError \/ e = StopFutureHandlers \/ temp_fails e.
  Proof.
    destruct h as [m|t]; cbn [inner_new_file].
    - unfold mem_new_file. destruct (mh_activated m) as [[]|]; intros H; [injection H as <- <-; tauto|discriminate|injection H as <- <-; tauto].
    - destruct (temp_new_file mk_temp i t) as [r t1] eqn:E. intros H. injection H as -> <-. right. right.
      now apply temp_new_err in E.
  Qed.
  Lemma h_new_err i h e h' : h_new_file mk_temp i h = (Err e, h') -> e = AttributeError \/ e = StopFutureHandlers \/ temp_fails e.
  Proof.
    destruct h as [m|t|c]; cbn [h_new_file].
    - destruct (mem_new_file i m) as [r m1] eqn:E. intros H. injection H as -> <-.
      apply (inner_new_err i (IMem m) e (IMem m1)). cbn. now rewrite E.
    - destruct (temp_new_file mk_temp i t) as [r m1] eqn:E. intros H. injection H as -> <-.
      apply (inner_new_err i (ITemp t) e (ITemp m1)). cbn. now rewrite E.
    - unfold conv_new_file. destruct (inner_new_file mk_temp i (cv_inner c)) as [r h1] eqn:E. cbn.
      intros H. injection H as -> <-. now apply (inner_new_err i (cv_inner c) e h1).
  Qed.
  Lemma new_files_err i e : forall hs, new_files mk_temp i hs = Err e -> e = AttributeError \/ temp_fails e.
  Proof.
    induction hs as [|h hs IH]; cbn [new_files]; [easy|].
    destruct (h_new_file mk_temp i h) as [[u|e1] h1] eqn:E.
    - destruct (new_files mk_temp i hs) as [l|e2] eqn:E2; cbn [bind]; [easy|]. intros H. injection H as <-. now apply IH.
    - apply h_new_err in E. destruct e1; try easy; intros H; injection H as <-;
        destruct E as [E|[E|E]]; try easy; tauto.
  Qed.
  Lemma inner_receive_err d h e h' : inner_receive d h = (Err e, h') -> e = AttributeError.
  Proof. destruct h as [[[[]|] jo [w|]]|[jo [w|]]]; cbn; intros H; now try injection H as <- <-. Qed.
  Lemma conv_switch_err c e : conv_switch mk_temp c = Err e -> e = AttributeError \/ temp_fails e.
  Proof.
    unfold conv_switch. destruct (inner_complete _ _) as [[f|]|e1] eqn:E1; cbn [bind].
    - destruct (inner_info _) as [i|]; [|intros H; injection H as <-; tauto].
      destruct (temp_new_file mk_temp i new_temp) as [[u|e2] t] eqn:E2.
      + pose proof (inner_receive_err (uf_content f) (ITemp t)) as HR. cbn [inner_receive] in HR.
        destruct (temp_receive (uf_content f) t) as [[o|e3] t2]; [easy|]. intros H. injection H as <-.
        left. now apply (HR e3 (ITemp t2)).
      + intros H. injection H as <-. right. now apply temp_new_err in E2.
    - intros H. injection H as <-. tauto.
    - intros H. injection H as <-. left. now apply inner_complete_err in E1.
  Qed.
  Lemma h_receive_err d h e h' : h_receive mk_temp max d h = (Err e, h') -> e = AttributeError \/ temp_fails e.
  Proof.
    destruct h as [m|t|c]; cbn [h_receive].
    - pose proof (inner_receive_err d (IMem m)) as HR. cbn [inner_receive] in HR.
      destruct (mem_receive d m) as [r m1]. intros H. injection H as -> <-. left. now apply (HR e (IMem m1)).
    - pose proof (inner_receive_err d (ITemp t)) as HR. cbn [inner_receive] in HR.
      destruct (temp_receive d t) as [r m1]. intros H. injection H as -> <-. left. now apply (HR e (ITemp m1)).
    - unfold conv_receive. match goal with |- context [match ?x with Ok c => _ | Err e => (Err e, _) end] => destruct x as [c1|e1] eqn:E end.
      + destruct (inner_receive d (cv_inner c1)) as [[o|e2] h2] eqn:E2; intros H; [easy|]. injection H as <- <-.
        left. now apply inner_receive_err in E2.
      + intros H. injection H as <- <-. destruct (_ && _)%bool; [|easy]. now apply conv_switch_err in E.
  Qed.
  Lemma feed_err e : forall hs d cs, feed mk_temp max d hs cs = Err e -> e = AttributeError \/ temp_fails e.
  Proof.
    induction hs as [|h hs IH]; intros d cs; cbn [feed]; [easy|]. destruct cs as [|c cs]; [easy|].
    destruct (h_receive mk_temp max d h) as [[[d'|]|e1] h'] eqn:E; [|easy|].
    - destruct (feed mk_temp max d' hs cs) as [r|e1] eqn:E2; cbn [bind]; [easy|]. intros H. injection H as <-. now apply IH in E2.
    - intros H. injection H as <-. now apply h_receive_err in E.
  Qed.
  Lemma fed_err b t hc o : fed mk_temp max b t hc o -> forall e, o = Err e ->
    e = AttributeError \/ e = TypeError \/ temp_fails e \/
    e = OutOfFuel /\ b = true /\ length (remove_ws t) mod 4 <> 0.
  Proof.
    induction 1 as [b hc|c rest hc hc1 o HF HR IH|c rest hc e HF|c rest x hc hc1 o Hmod HD HF HR IH
                   |c rest x hc e Hmod HD HF|c rest hc e Hmod HD|rest hc Hmod]; intros e0 E; try easy.
    - destruct (IH e0 E) as [H|[H|[H|(_ & H & _)]]]; [tauto|tauto|tauto|easy].
    - injection E as <-. apply feed_err in HF. tauto.
    - destruct (IH e0 E) as [H|[H|[H|(H & Hb & Hm)]]]; [tauto|tauto|tauto|].
      right. right. right. split; [easy|]. split; [easy|]. unfold remove_ws in *. rewrite filter_app, app_length.
      rewrite Nat.add_mod, Hmod by easy. cbn [Nat.add]. now rewrite Nat.mod_mod.
    - injection E as <-. apply feed_err in HF. tauto.
    - injection E as <-. tauto.
    - injection E as <-. tauto.
  Qed.
End FileErr.

(** does a part make the parser run forever?  Only a base64 file can. *)
Definition b64_part (reg : registry) (name2cp : str -> option N) (t : str) : Prop :=
  exists ty m payload i, classify reg t = Ok (ty, m, payload) /\ part_action name2cp ty m = Ok (AFile i true) /\
    length (remove_ws payload) mod 4 <> 0.

Lemma step_err reg name2cp mk_temp st p t o : countI st p -> step reg name2cp mk_temp st p t o ->
  match o with
  | ODone p' | OSkip p' => countI st p'
  | OErr e => may_raise st e \/ temp_fails mk_temp e \/ e = OutOfFuel /\ b64_part reg name2cp t
  end.
Proof.
  intros HI HS. pose proof (step_countI _ _ _ _ _ _ _ HI HS) as HC. destruct o as [e|p'|p']; [|exact HC|exact HC]. clear HC.
  unfold step in HS. destruct (classify reg t) as [[[ty m] payload]|e1] eqn:EC.
  2:{ injection HS as ->. apply classify_err in EC as ->. left. left. inl. }
  destruct (finish_file p) as [p1|e1] eqn:EF.
  2:{ injection HS as ->. apply finish_err in EF as ->. left. left. inl. }
  assert (HI1 : countI st p1).
  { destruct (finish_same p p1 EF) as (E1 & E2 & E3 & _). unfold countI in *. now rewrite E1, E2, E3. }
  destruct (part_action name2cp ty m) as [[|name tenc|i b64]|e1] eqn:EA.
  - easy.
  - destruct (field_step reg st name tenc m p1 payload) as [p2|e2] eqn:E; [easy|]. injection HS as ->.
    left. now apply (field_err _ _ _ _ _ _ _ _ HI1 E).
  - destruct (new_files mk_temp i (p_hs p1)) as [hs|e2] eqn:EN.
    2:{ injection HS as ->. apply new_files_err in EN as [->|EN]; [left; left; inl|tauto]. }
    destruct HS as (r & HF & Ho). destruct r as [hc|e2]; [easy|]. injection Ho as ->.
    pose proof (fed_err _ _ _ _ _ _ HF e2 eq_refl) as HF1.
    destruct HF1 as [->|[->|[HT|(-> & -> & Hm)]]]; [left; left; inl|left; left; inl|tauto|].
    right. right. split; [easy|]. now exists ty, m, payload, i.
  - injection HS as ->. apply part_action_err in EA as [->| ->]; left; left; inl.
Qed.
