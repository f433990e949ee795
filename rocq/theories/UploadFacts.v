(** * Facts about upload handlers and file names (claims C36-C38) *)
From Coq Require Import Lia.
From Verif Require Import Py PyFacts PyDict CodecModel HeaderModel UploadModel MultipartModel MultipartSem MultipartFacts.

Lemma skipn_In {A} n (l : list A) x : In x (skipn n l) -> In x l.
Proof. intros H. rewrite <- (firstn_skipn n l). apply in_or_app. now right. Qed.
Lemma firstn_In {A} n (l : list A) x : In x (firstn n l) -> In x l.
Proof. intros H. rewrite <- (firstn_skipn n l). apply in_or_app. now left. Qed.

Lemma basename_sep p : ~ In 47%N (basename p).
Proof.
  unfold basename. destruct (rfindc psep p) as [i|] eqn:E.
  - now apply rfindc_Some in E as (_ & E & _).
  - now apply rfindc_None in E.
Qed.
Lemma basename_In p c : In c (basename p) -> In c p.
Proof. unfold basename. destruct (rfindc psep p) as [i|]; [|easy]. apply skipn_In. Qed.
Lemma splitext_app p : fst (splitext p) ++ snd (splitext p) = p.
Proof.
  unfold splitext. destruct (rfindc pdot p) as [d|]; [|apply app_nil_r].
  destruct (_ && _); cbn; [apply firstn_skipn|apply app_nil_r].
Qed.
Lemma splitext_sep p : ~ In 47%N (snd (splitext p)).
Proof.
  unfold splitext. destruct (rfindc pdot p) as [d|] eqn:Ed; [|easy].
  destruct (_ && _) eqn:E; cbn; [|easy]. apply andb_true_iff in E as [E _]. apply Nat.leb_le in E.
  destruct (rfindc psep p) as [i|] eqn:Ei.
  - apply rfindc_Some in Ei as (_ & Ei & _). intros H. apply Ei.
    replace (skipn d p) with (skipn (d - S i) (skipn (S i) p)) in H; [now apply skipn_In in H|].
    rewrite skipn_skipn. f_equal. lia.
  - apply rfindc_None in Ei. intros H. now apply skipn_In in H.
Qed.
Lemma set_name_In name c : In c (set_name name) -> In c (basename name).
Proof.
  unfold set_name. destruct (Nat.ltb 255 (length (basename name))); [|easy].
  pose proof (splitext_app (basename name)) as HA. destruct (splitext (basename name)) as [n ext]. cbn in HA.
  intros [H|H]%in_app_or; apply firstn_In in H; rewrite <- HA; apply in_or_app; [now left|now right].
Qed.
Lemma set_name_length name : length (set_name name) <= 255.
Proof.
  unfold set_name. destruct (Nat.ltb_spec 255 (length (basename name))); [|easy].
  destruct (splitext (basename name)) as [n ext]. rewrite app_length, !firstn_length. lia.
Qed.
(** a name that is short enough and has no separator is kept *)
Lemma set_name_id name : ~ In 47%N name -> length name <= 255 -> set_name name = name.
Proof.
  intros H Hl. unfold set_name, basename. apply rfindc_None in H. change psep with 47%N. rewrite H.
  now destruct (Nat.ltb_spec 255 (length name)); [lia|].
Qed.
Lemma ie_sanitize_back f : ~ In 92%N (ie_sanitize f).
Proof.
  unfold ie_sanitize. destruct f as [|x f]; [easy|]. intros H. apply strip_In in H.
  destruct (rfindc hback (x :: f)) as [i|] eqn:E.
  - now apply rfindc_Some in E as (_ & E & _).
  - now apply rfindc_None in E.
Qed.

(** ** The file infos a handler holds *)
Definition olist {A} (o : option A) : list A := match o with Some a => [a] | None => [] end.
Definition i_infos (h : inner) : list finfo := olist (inner_info h).
Definition h_infos (h : handler) : list finfo :=
  match h with HMem m => olist (mh_info m) | HTemp t => olist (th_info t) | HConv c => i_infos (cv_inner c) end.
Definition hs_infos (hs : list handler) : list finfo := flat_map h_infos hs.

(** what a completed file takes from the info *)
Definition made_from (f : ufile) (i : finfo) : Prop :=
  uf_name f = set_name (fi_name i) /\ uf_ctype f = fi_ctype i /\ uf_charset f = fi_charset i /\
  uf_extra f = fi_extra i /\ uf_tenc f = fi_tenc i /\
  match uf_kind f with InMemory n => n = fi_field i | Temporary s => s = temp_suffix (fi_name i) end.

Lemma inner_complete_made c h f : inner_complete c h = Ok (Some f) -> exists i, In i (i_infos h) /\ made_from f i /\ uf_size f = c.
Proof.
  unfold i_infos. destruct h as [[[[]|] [i|] [w|]]|[[i|] [w|]]]; cbn; try easy; intros H; injection H as <-;
    exists i; (split; [now left|]); unfold made_from; cbn; easy.
Qed.
Lemma h_complete_made c h f : h_complete c h = Ok (Some f) -> exists i, In i (h_infos h) /\ made_from f i /\ uf_size f = c.
Proof.
  destruct h as [m|t|cv]; cbn [h_complete h_infos]; intros H.
  - now apply (inner_complete_made c (IMem m)).
  - now apply (inner_complete_made c (ITemp t)).
  - now apply inner_complete_made.
Qed.

Section Infos.
  Context (mk_temp : str -> res unit) (max : option Z).
  Lemma inner_new_infos i h r h' : inner_new_file mk_temp i h = (r, h') -> forall j, In j (i_infos h') -> j = i.
  Proof.
    unfold i_infos. destruct h as [[[[]|] jo w]|[jo w]]; cbn; unfold temp_new_file;
      try destruct (mk_temp _); cbn; intros H; injection H as <- <-; cbn; intros j [<-|[]]; easy.
  Qed.
  Lemma h_new_infos i h r h' : h_new_file mk_temp i h = (r, h') -> forall j, In j (h_infos h') -> j = i.
  Proof.
    destruct h as [m|t|c]; cbn [h_new_file].
    - pose proof (inner_new_infos i (IMem m)) as HI. cbn [inner_new_file] in HI.
      destruct (mem_new_file i m) as [r0 m0]. intros E. injection E as <- <-. now apply (HI r0 (IMem m0)).
    - pose proof (inner_new_infos i (ITemp t)) as HI. cbn [inner_new_file] in HI.
      destruct (temp_new_file mk_temp i t) as [r0 t0]. intros E. injection E as <- <-. now apply (HI r0 (ITemp t0)).
    - unfold conv_new_file. destruct (inner_new_file mk_temp i (cv_inner c)) as [r0 h0] eqn:E0.
      intros E. injection E as <- <-. cbn. now apply (inner_new_infos i _ _ _ E0).
  Qed.
  Lemma new_files_infos i : forall hs hs', new_files mk_temp i hs = Ok hs' ->
    forall j, In j (hs_infos hs') -> j = i \/ In j (hs_infos hs).
  Proof.
    induction hs as [|h hs IH]; cbn [new_files]; intros hs' H j Hj; [now injection H as <-|].
    destruct (h_new_file mk_temp i h) as [r h'] eqn:E.
    assert (HC : forall l, hs' = h' :: l -> (In j (hs_infos l) -> j = i \/ In j (hs_infos hs)) -> j = i \/ In j (hs_infos (h :: hs))).
    { intros l -> HL. cbn in Hj. apply in_app_or in Hj as [Hj|Hj].
      - left. now apply (h_new_infos i h r h' E).
      - destruct (HL Hj) as [HH|HH]; [now left|]. right. cbn. apply in_or_app. now right. }
    destruct r as [u|e].
    - destruct (new_files mk_temp i hs) as [l|e] eqn:E2; cbn [bind] in H; [|easy]. injection H as <-.
      apply (HC l eq_refl). intros. now apply (IH l).
    - destruct e; try easy. injection H as <-. apply (HC hs eq_refl). now right.
  Qed.
  Lemma inner_receive_infos d h r h' : inner_receive d h = (r, h') -> i_infos h' = i_infos h.
  Proof.
    unfold i_infos. destruct h as [[[[]|] jo [w|]]|[jo [w|]]]; cbn; intros H; injection H as <- <-; easy.
  Qed.
  Lemma conv_switch_infos c c' : conv_switch mk_temp c = Ok c' -> forall j, In j (i_infos (cv_inner c')) -> In j (i_infos (cv_inner c)).
  Proof.
    unfold conv_switch. destruct (inner_complete _ _) as [[f|]|]; cbn [bind]; try easy.
    unfold i_infos. destruct (inner_info (cv_inner c)) as [i|]; [|easy]. unfold temp_new_file.
    destruct (mk_temp _); [|easy]. cbn. intros H. injection H as <-. cbn. easy.
  Qed.
  Lemma h_receive_infos d h r h' : h_receive mk_temp max d h = (r, h') -> forall j, In j (h_infos h') -> In j (h_infos h).
  Proof.
    destruct h as [m|t|c]; cbn [h_receive].
    - pose proof (inner_receive_infos d (IMem m)) as HI. cbn [inner_receive] in HI.
      destruct (mem_receive d m) as [r0 m0]. intros E. injection E as <- <-. specialize (HI r0 (IMem m0) eq_refl).
      unfold i_infos in HI. cbn in *. now rewrite HI.
    - pose proof (inner_receive_infos d (ITemp t)) as HI. cbn [inner_receive] in HI.
      destruct (temp_receive d t) as [r0 m0]. intros E. injection E as <- <-. specialize (HI r0 (ITemp m0) eq_refl).
      unfold i_infos in HI. cbn in *. now rewrite HI.
    - unfold conv_receive. set (nd := if (_ && _)%bool then _ else _).
      assert (HS : forall c1, nd = Ok c1 -> forall j, In j (i_infos (cv_inner c1)) -> In j (i_infos (cv_inner c))).
      { unfold nd. destruct (_ && _)%bool; [apply conv_switch_infos|]. intros c1 H. now injection H as <-. }
      destruct nd as [c1|e]; [|intros E; injection E as <- <-; easy].
      destruct (inner_receive d (cv_inner c1)) as [r0 h0] eqn:E0. pose proof (inner_receive_infos _ _ _ _ E0) as HI.
      destruct r0; intros E; injection E as <- <-; cbn; rewrite HI; now apply (HS c1).
  Qed.
  Lemma feed_infos : forall hs d cs r, feed mk_temp max d hs cs = Ok r -> forall j, In j (hs_infos (fst r)) -> In j (hs_infos hs).
  Proof.
    induction hs as [|h hs IH]; intros d cs r; cbn [feed]; [intros H; now injection H as <-|].
    destruct cs as [|c cs]; [intros H; now injection H as <-|].
    destruct (h_receive mk_temp max d h) as [[[d'|]|e] h'] eqn:E; [| |easy].
    - destruct (feed mk_temp max d' hs cs) as [r0|e] eqn:E2; cbn [bind]; [|easy]. intros H. injection H as <-. cbn.
      intros j Hj. apply in_app_or in Hj as [Hj|Hj]; apply in_or_app; [left; now apply (h_receive_infos _ _ _ _ E)|].
      right. now apply (IH d' cs r0).
    - intros H. injection H as <-. cbn. intros j Hj. apply in_app_or in Hj as [Hj|Hj]; apply in_or_app; [|now right].
      left. now apply (h_receive_infos _ _ _ _ E).
  Qed.
  Lemma fed_infos b t hc o : fed mk_temp max b t hc o -> forall hc', o = Ok hc' -> forall j, In j (hs_infos (fst hc')) -> In j (hs_infos (fst hc)).
  Proof.
    induction 1 as [b hc|c rest hc hc1 o HF HR IH|c rest hc e HF|c rest x hc hc1 o Hmod HD HF HR IH
                   |c rest x hc e Hmod HD HF|c rest hc e Hmod HD|rest hc Hmod]; intros hc' E j Hj; try easy.
    - now injection E as <-.
    - apply (feed_infos _ _ _ _ HF). now apply (IH hc').
    - apply (feed_infos _ _ _ _ HF). now apply (IH hc').
  Qed.
  Lemma raw_infos len h : h_infos (h_raw_input max len h) = h_infos h.
  Proof. destruct h as [m|t|[[m|t] ? ?]]; reflexivity. Qed.
End Infos.
