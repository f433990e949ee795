(** * The limit on the number of fields, for every body, reader and handlers (claim C24) *)
From Coq Require Import ZifyBool ZifyN ZifyNat.
From Verif Require Import Py PyFacts PyDict Spec StreamModel CodecModel CodecFacts QueryModel Base64Model HeaderModel
  BoundaryModel UploadModel MultipartModel MultipartSem FormSpec FormFacts MultipartInv ItemFacts.

Section Count.
  Context {R : Type} (rd : nat -> R -> res str * R).
  Context (reg : registry) (name2cp : str -> option N) (mk_temp : str -> res unit).
  Context (st : mset) (D : str) (fuel : nat) (n : Z).

  Notation st0 := (with_dnum st None).
  Notation st1 := (with_dnum st (Some n)).

  Lemma read_field_dnum name tenc m p s : (p_keys p <= n)%Z ->
    (read_field rd reg st1 fuel name tenc m p s = if Z.ltb n (p_keys p + 1) then (Err TooManyFieldsSent, s)
      else read_field rd reg st0 fuel name tenc m p s) /\
    (forall p' s', read_field rd reg st0 fuel name tenc m p s = (Ok p', s') -> p_keys p' = (p_keys p + 1)%Z).
  Proof.
    intros Hk. unfold read_field, with_dnum. cbn [ms_dnum ms_dmem ms_charset]. split; [reflexivity|]. intros p' s'.
    destruct (ls_read _ _ _ s) as [[raw|e] s1]; [|easy].
    match goal with |- context [match ?x with Ok _ => _ | Err e => (Err e, s1) end] => destruct x as [data|e] end; [|easy].
    destruct (match ms_dmem st with Some n => _ | None => false end); [easy|].
    destruct (match dget !"content-type" m with Some v => v | None => _ end) as [ct extra].
    destruct (post_append _ _ _ _ _) as [post|e]; [|easy]. intros E. now injection E as <- _.
  Qed.
  Lemma file_loop_dnum : forall k b hs cs s,
    file_loop rd mk_temp st1 fuel k b hs cs s = file_loop rd mk_temp st0 fuel k b hs cs s.
  Proof.
    induction k as [|k IH]; intros b hs cs s; [easy|]. cbn [file_loop]. destruct (ls_next _ s) as [[c| |e] s1]; [|easy|easy].
    match goal with |- context [if b then ?x else ?y] => destruct (if b then x else y) as [[d|e] s2] end; [|easy].
    change (ms_fmem st1) with (ms_fmem st). change (ms_fmem st0) with (ms_fmem st).
    destruct (feed _ _ d hs cs) as [[hs1 cs1]|e]; [|easy]. apply IH.
  Qed.
  Lemma read_file_dnum name tenc disp m p s :
    read_file rd name2cp mk_temp st1 fuel name tenc disp m p s = read_file rd name2cp mk_temp st0 fuel name tenc disp m p s /\
    (forall p' s', read_file rd name2cp mk_temp st0 fuel name tenc disp m p s = (Ok p', s') -> p_keys p' = p_keys p /\ p_post p' = p_post p).
  Proof.
    unfold read_file. fold (filename_of name2cp disp). destruct (filename_of name2cp disp) as [[|c f]|e].
    - split; [easy|]. intros p' s' E. now injection E as <- _.
    - destruct (match dget !"content-type" m with Some v => v | None => _ end) as [ct extra].
      destruct (new_files _ _ _) as [hs|e]; [|easy]. rewrite file_loop_dnum. split; [easy|].
      intros p' s'. destruct (file_loop _ _ _ _ _ _ _ _ s) as [[[hs1 cs1]|e] s1]; [|easy]. intros E. now injection E as <- _.
    - easy.
  Qed.
  Lemma one_part_dnum ty m p s : (p_keys p <= n)%Z ->
    (forall e s', one_part rd reg name2cp mk_temp st0 fuel ty m p s = (Err e, s') ->
       one_part rd reg name2cp mk_temp st1 fuel ty m p s = (Err e, s') \/
       fst (one_part rd reg name2cp mk_temp st1 fuel ty m p s) = Err TooManyFieldsSent) /\
    (forall p' s', one_part rd reg name2cp mk_temp st0 fuel ty m p s = (Ok p', s') ->
       (p_keys p <= p_keys p')%Z /\
       if Z.ltb n (p_keys p') then fst (one_part rd reg name2cp mk_temp st1 fuel ty m p s) = Err TooManyFieldsSent
       else one_part rd reg name2cp mk_temp st1 fuel ty m p s = (Ok p', s')).
  Proof.
    intros Hk. unfold one_part.
    assert (HS : forall q : pst, q = p -> (forall e s', (Ok q, s) = (Err e, s') -> (Ok q, s) = (Err e, s') \/ fst (Ok q : res pst, s) = Err TooManyFieldsSent) /\
      (forall p' s', (Ok q, s) = (Ok p', s') -> (p_keys p <= p_keys p')%Z /\
        if Z.ltb n (p_keys p') then fst (Ok q : res pst, s) = Err TooManyFieldsSent else (Ok q, s) = (Ok p', s'))).
    { intros q ->. split; [easy|]. intros p' s' E. injection E as <- <-. split; [lia|]. now replace (Z.ltb n (p_keys p)) with false by lia. }
    destruct (dget CDISP m) as [[v disp]|]; [|now apply HS]. destruct (dget !"name" disp) as [raw|]; [|now apply HS].
    cbv zeta. destruct (to_native (pstrip raw)) as [name|e]; [|split; [now left|easy]].
    destruct ty; [now apply HS| |]; swap 1 2.
    - match goal with |- context [read_field _ _ _ _ _ ?t m p s] => destruct (read_field_dnum name t m p s Hk) as [E1 E2]; rewrite E1 end.
      split.
      + intros e s' E. destruct (Z.ltb n (p_keys p + 1)); [now right|now left].
      + intros p' s' E. pose proof (E2 _ _ E) as EK. rewrite EK. split; [lia|]. destruct (Z.ltb n (p_keys p + 1)); easy.
    - match goal with |- context [read_file _ _ _ _ _ _ ?t disp m p s] => destruct (read_file_dnum name t disp m p s) as [E1 E2]; rewrite E1 end.
      split; [now left|]. intros p' s' E. destruct (E2 _ _ E) as [EK _]. rewrite EK. split; [lia|]. now replace (Z.ltb n (p_keys p)) with false by lia.
  Qed.

  Lemma parts_loop_dnum : forall k p s, (p_keys p <= n)%Z ->
    match parts_loop rd reg name2cp mk_temp st0 D fuel k p s with
    | (Err e, s') => parts_loop rd reg name2cp mk_temp st1 D fuel k p s = (Err e, s') \/
        fst (parts_loop rd reg name2cp mk_temp st1 D fuel k p s) = Err TooManyFieldsSent
    | (Ok p', s') => (p_keys p <= p_keys p')%Z /\
        if Z.ltb n (p_keys p') then fst (parts_loop rd reg name2cp mk_temp st1 D fuel k p s) = Err TooManyFieldsSent
        else parts_loop rd reg name2cp mk_temp st1 D fuel k p s = (Ok p', s')
    end.
  Proof.
    induction k as [|k IH]; intros p s Hk; [now left|]. cbn [parts_loop].
    destruct (bi_init _ _ s D) as [[b|e] s1].
    2:{ destruct e; try now left. split; [lia|]. now replace (Z.ltb n (p_keys p)) with false by lia. }
    destruct (parse_boundary_stream rd reg fuel (ls_init b None)) as [[[ty m]|e] s2]; [|now left].
    destruct (finish_file p) as [p1|e] eqn:EF; [|now left].
    destruct (finish_same p p1 EF) as (_ & EK & _).
    destruct (one_part_dnum ty m p1 s2 ltac:(lia)) as [H1 H2].
    destruct (one_part rd reg name2cp mk_temp st0 fuel ty m p1 s2) as [[p2|e] s3].
    - destruct (H2 _ _ eq_refl) as [H3 H4]. destruct (Z.ltb_spec n (p_keys p2)) as [Hn|Hn].
      + destruct (one_part rd reg name2cp mk_temp st1 fuel ty m p1 s2) as [[p2'|e'] s3']; [easy|].
        cbn [fst] in H4. injection H4 as ->.
        (* the unlimited run goes on and can only count further *)
        assert (HM : forall k p s, match parts_loop rd reg name2cp mk_temp st0 D fuel k p s with
                     | (Ok p', _) => (p_keys p <= p_keys p')%Z | (Err _, _) => True end).
        { clear -n. induction k as [|k IH]; intros p s; [easy|]. cbn [parts_loop]. destruct (bi_init _ _ s D) as [[b|e] s1].
          2:{ destruct e; try exact I. cbn; lia. }
          destruct (parse_boundary_stream rd reg fuel (ls_init b None)) as [[[ty m]|e] s2]; [|easy].
          destruct (finish_file p) as [p1|e] eqn:EF; [|easy]. destruct (finish_same p p1 EF) as (_ & EK & _).
          destruct (one_part rd reg name2cp mk_temp st0 fuel ty m p1 s2) as [[p2|e] s3] eqn:E1; [|easy].
          specialize (IH p2 (outer_of s1 s3)). destruct (parts_loop _ _ _ _ _ _ _ k p2 _) as [[p'|] s']; [|easy].
          assert (HL : (p_keys p1 <= p_keys p2)%Z); [|lia]. clear -E1 n. unfold one_part in E1.
          destruct (dget CDISP m) as [[v disp]|]; [|injection E1 as <- _; lia]. destruct (dget !"name" disp) as [raw|]; [|injection E1 as <- _; lia].
          destruct (to_native (pstrip raw)) as [name|e]; [|easy]. destruct ty; [injection E1 as <- _; lia| |]; swap 1 2.
          - unfold read_field in E1. cbn [with_dnum ms_dnum ms_dmem ms_charset] in E1.
            destruct (ls_read _ _ _ s2) as [[rw|e] s4]; [|easy].
            match type of E1 with match ?x with Ok _ => _ | Err e => _ end = _ => destruct x as [data|e] end; [|easy].
            destruct (match ms_dmem st with Some n => _ | None => false end); [easy|].
            destruct (match dget !"content-type" m with Some v => v | None => _ end) as [ct extra].
            destruct (post_append _ _ _ _ _) as [post|e]; [|easy]. injection E1 as <- _. cbn. lia.
          - destruct (proj2 (read_file_dnum _ _ _ _ _ _) _ _ E1) as [-> _]. lia. }
        specialize (HM k p2 (outer_of s1 s3)). destruct (parts_loop rd reg name2cp mk_temp st0 D fuel k p2 (outer_of s1 s3)) as [[p'|e] s'].
        * split; [lia|]. now replace (Z.ltb n (p_keys p')) with true by lia.
        * now right.
      + rewrite H4. specialize (IH p2 (outer_of s1 s3) Hn).
        destruct (parts_loop rd reg name2cp mk_temp st0 D fuel k p2 (outer_of s1 s3)) as [[p'|e] s']; [|exact IH].
        destruct IH as [IH1 IH2]. split; [lia|exact IH2].
    - destruct (H1 _ _ eq_refl) as [->|H]; [now left|]. destruct (one_part rd reg name2cp mk_temp st1 fuel ty m p1 s2) as [[p2'|e'] s3']; [easy|].
      right. exact H.
  Qed.
End Count.

(** one entry for every field *)
Section Entries.
  Context {R : Type} (rd : nat -> R -> res str * R).
  Context (reg : registry) (name2cp : str -> option N) (mk_temp : str -> res unit).
  Context (st : mset) (D : str) (fuel : nat) (c : codec).
  Context (Hreg : reg (ms_charset st) = Some c) (Hc : codec_ok c).

  Lemma post_append_one name e d d' : post_append reg (ms_charset st) name e d = Ok d' -> entries d' = S (entries d).
  Proof.
    unfold post_append, bytes_to_text, encode_bytes_replace. rewrite Hreg.
    destruct (ascii_only name) eqn:Ha; cbn [bind]; [|easy].
    rewrite (cok_erep c Hc name name (cok_enc_ascii c Hc name Ha)). rewrite Ha.
    rewrite (cok_erep c Hc name name (cok_enc_ascii c Hc name Ha)). cbn [bind].
    assert (HK : key_of (PB name) = name) by (unfold key_of; now rewrite Ha). rewrite HK. clear HK.
    unfold dmem. destruct (dget name d) as [l|] eqn:EG; cbn [bind].
    - rewrite EG. intros E. injection E as <-. unfold entries.
      pose proof (measure_dset (@length entry) name (l ++ [e]) d) as M. rewrite EG, app_length in M. cbn in M. lia.
    - rewrite dget_dset, seqb_refl. intros E. injection E as <-. unfold entries.
      pose proof (measure_dset (@length entry) name [e] (dset name [] d)) as M. rewrite dget_dset, seqb_refl in M. cbn in M.
      pose proof (measure_dset (@length entry) name [] d) as M2. rewrite EG in M2. cbn in M2. cbn [app]. lia.
  Qed.

  Lemma one_part_entries ty m p s p' s' : one_part rd reg name2cp mk_temp st fuel ty m p s = (Ok p', s') ->
    Z.of_nat (entries (p_post p)) = p_keys p -> Z.of_nat (entries (p_post p')) = p_keys p'.
  Proof.
    unfold one_part. intros E1 HE.
    destruct (dget CDISP m) as [[v disp]|]; [|injection E1 as <- _; lia]. destruct (dget !"name" disp) as [raw|]; [|injection E1 as <- _; lia].
    destruct (to_native (pstrip raw)) as [name|e]; [|easy]. destruct ty; [injection E1 as <- _; lia| |]; swap 1 2.
    - unfold read_field in E1. destruct (match ms_dnum st with Some n => _ | None => false end); [easy|].
      destruct (ls_read _ _ _ s) as [[rw|e] s4]; [|easy].
      match type of E1 with match ?x with Ok _ => _ | Err e => _ end = _ => destruct x as [data|e] end; [|easy].
      destruct (match ms_dmem st with Some n => _ | None => false end); [easy|].
      destruct (match dget !"content-type" m with Some v => v | None => _ end) as [ct extra].
      destruct (post_append _ _ _ _ _) as [post|e] eqn:EP; [|easy]. injection E1 as <- _. cbn [p_post p_keys].
      apply post_append_one in EP. lia.
    - unfold read_file in E1. fold (filename_of name2cp disp) in E1. destruct (filename_of name2cp disp) as [[|x f]|e];
        [injection E1 as <- _; lia| |easy].
      destruct (match dget !"content-type" m with Some v => v | None => _ end) as [ct extra].
      destruct (new_files _ _ _) as [hs|e]; [|easy].
      destruct (file_loop _ _ _ _ _ _ _ _ s) as [[[hs1 cs1]|e] s1]; [|easy]. injection E1 as <- _. exact HE.
  Qed.
  Lemma parts_loop_entries : forall k p s p' s', parts_loop rd reg name2cp mk_temp st D fuel k p s = (Ok p', s') ->
    Z.of_nat (entries (p_post p)) = p_keys p -> Z.of_nat (entries (p_post p')) = p_keys p'.
  Proof.
    induction k as [|k IH]; intros p s p' s' H HE; [easy|]. cbn [parts_loop] in H.
    destruct (bi_init _ _ s D) as [[b|e] s1].
    2:{ destruct e; try easy. now injection H as <- _. }
    destruct (parse_boundary_stream rd reg fuel (ls_init b None)) as [[[ty m]|e] s2]; [|easy].
    destruct (finish_file p) as [p1|e] eqn:EF; [|easy]. destruct (finish_same p p1 EF) as (EP & EK & _).
    destruct (one_part rd reg name2cp mk_temp st fuel ty m p1 s2) as [[p2|e] s3] eqn:E1; [|easy].
    apply (IH _ _ _ _ H). apply (one_part_entries _ _ _ _ _ _ E1). now rewrite EP, EK.
  Qed.
End Entries.

Section Limit.
  Context {R : Type} (rd : nat -> R -> res str * R) (exh : R -> res unit * R).
  Context (reg : registry) (name2cp : str -> option N) (mk_temp : str -> res unit).
  Context (st : mset) (D : str) (fuel : nat) (c : codec).
  Context (Hreg : reg (ms_charset st) = Some c) (Hc : codec_ok c).

  (** the limit [n] is exceeded exactly when an unlimited parse finds more than [n] fields; otherwise it changes nothing *)
  Theorem count_limit n csize len hs r : (0 <= n)%Z ->
    match mp_parse rd exh reg name2cp mk_temp (with_dnum st None) D fuel csize len hs r with
    | (Ok (post, files), r') =>
        if Z.ltb n (Z.of_nat (entries post))
        then fst (mp_parse rd exh reg name2cp mk_temp (with_dnum st (Some n)) D fuel csize len hs r) = Err TooManyFieldsSent
        else mp_parse rd exh reg name2cp mk_temp (with_dnum st (Some n)) D fuel csize len hs r = (Ok (post, files), r')
    | (Err e, r') =>
        mp_parse rd exh reg name2cp mk_temp (with_dnum st (Some n)) D fuel csize len hs r = (Err e, r') \/
        fst (mp_parse rd exh reg name2cp mk_temp (with_dnum st (Some n)) D fuel csize len hs r) = Err TooManyFieldsSent
    end.
  Proof.
    intros Hn. unfold mp_parse.
    destruct (querydict_none reg (with_dnum st None) c Hreg Hc true I) as [q1 ->].
    destruct (querydict_none reg (with_dnum st (Some n)) c Hreg Hc true Hn) as [q2 ->].
    destruct (Z.eqb len 0). { now replace (Z.ltb n _) with false by (cbn; lia). }
    change (ms_fmem (with_dnum st None)) with (ms_fmem st). change (ms_fmem (with_dnum st (Some n))) with (ms_fmem st).
    set (hs' := map _ hs). set (p0 := mkP [] [] [] _ hs' 0 0).
    pose proof (parts_loop_dnum rd reg name2cp mk_temp st D fuel n fuel p0 (ls_init (mkCI r csize) None) ltac:(cbn; lia)) as H.
    destruct (parts_loop rd reg name2cp mk_temp (with_dnum st None) D fuel fuel p0 (ls_init (mkCI r csize) None)) as [[p'|e] s'] eqn:EL.
    - destruct H as [_ H].
      assert (HE : Z.of_nat (entries (p_post p')) = p_keys p').
      { apply (parts_loop_entries rd reg name2cp mk_temp (with_dnum st None) D fuel c Hreg Hc _ _ _ _ _ EL). reflexivity. }
      destruct (exh (input_of r s')) as [[u|e] r'] eqn:EX.
      + rewrite HE. destruct (Z.ltb n (p_keys p')).
        * destruct (parts_loop rd reg name2cp mk_temp (with_dnum st (Some n)) D fuel fuel p0 (ls_init (mkCI r csize) None)) as [[p2|e2] s2]; [easy|].
          cbn [fst] in *. congruence.
        * now rewrite H, EX.
      + destruct (Z.ltb n (p_keys p')).
        * right. destruct (parts_loop rd reg name2cp mk_temp (with_dnum st (Some n)) D fuel fuel p0 (ls_init (mkCI r csize) None)) as [[p2|e2] s2]; [easy|].
          cbn [fst] in *. congruence.
        * left. now rewrite H, EX.
    - destruct H as [->|H]; [now left|]. right.
      destruct (parts_loop rd reg name2cp mk_temp (with_dnum st (Some n)) D fuel fuel p0 (ls_init (mkCI r csize) None)) as [[p2|e2] s2]; [easy|].
      cbn [fst] in *. congruence.
  Qed.
End Limit.
