(** * Raising the limits does not change what was accepted (for claim C141) *)
From Coq Require Import ZifyBool ZifyN ZifyNat.
From Verif Require Import Py PyFacts PyDict Spec StreamModel StreamSpec CodecModel PercentModel QueryModel Base64Model HeadModel HeaderModel
  BoundaryModel UploadModel MultipartModel RequestModel RequestSpec HeaderRun BodyRun ParseRun QuerySpec PropsData.

Local Arguments querydict : simpl never.

(** limits on a number of bytes; on the number of fields, where 0 is no number but a sign, and None is no limit *)
Definition mem_le (a b : option Z) : Prop :=
  match a, b with Some n, Some m => (n <= m)%Z | None, None => True | _, _ => False end.
Definition num_le (a b : option Z) : Prop :=
  match a, b with Some n, Some m => (1 <= n <= m)%Z | Some n, None => (1 <= n)%Z | None, None => True | None, Some _ => False end.
Lemma mem_le_refl a : mem_le a a. Proof. destruct a; cbn; lia. Qed.

Lemma querydict_raised reg cs a b q mut x : num_le a b ->
  querydict reg (Some (mkQS cs a)) q mut = Ok x -> querydict reg (Some (mkQS cs b)) q mut = Ok x.
Proof.
  intros HL. unfold querydict. cbn [qs_charset qs_limit].
  destruct (query_text reg cs _) as [t|e]; [|easy]. cbn [bind].
  assert (E : forall l, limited_parse_qsl reg t true cs a = Ok l -> limited_parse_qsl reg t true cs b = Ok l).
  { intros l H. destruct a as [n|]; [|destruct b; [easy|exact H]]. assert (Hn : (0 < n)%Z) by (destruct b; cbn in HL; lia).
    destruct (C42_limit_exact reg t true cs n Hn) as [H1 H2].
    destruct (Z_ge_lt_dec (Z.of_nat (separators t)) n) as [G|G]; [rewrite H1 in H by exact G; easy|]. rewrite H2 in H by exact G.
    destruct b as [m|]; [|exact H]. cbn in HL. destruct (C42_limit_exact reg t true cs m ltac:(lia)) as [_ H4]. rewrite H4 by lia. exact H. }
  destruct (limited_parse_qsl reg t true cs a) as [l|e]; [|easy]. rewrite (E l eq_refl). easy.
Qed.

(** ** reading with a larger bound *)
Section Read.
  Context {P : Type} (pn : P -> nxt * P).
  Lemma loop_more : forall f n m out s b s1, ls_read_loop pn f n out s = (Ok b, s1) -> (zlen b < n + zlen out)%Z -> (n <= m)%Z ->
    ls_read_loop pn f m out s = (Ok b, s1).
  Proof.
    induction f as [|f IH]; intros n m out s b s1 H HB HM; [easy|]. cbn [ls_read_loop] in *.
    destruct (Z.eqb_spec n 0) as [->|N0]. { injection H as <- <-. lia. }
    destruct (Z.ltb_spec n 0); [easy|]. destruct (Z.eqb_spec m 0); [lia|]. destruct (Z.ltb_spec m 0); [lia|].
    destruct (ls_next pn s) as [[c| |e] s2]; [|exact H|easy].
    destruct (Nat.lt_ge_cases (length c) (Z.to_nat n)) as [L|L].
    - rewrite (firstn_all2 (n := Z.to_nat n)), (skipn_all2 (n := Z.to_nat n)) in H by lia.
      rewrite (firstn_all2 (n := Z.to_nat m)), (skipn_all2 (n := Z.to_nat m)) by lia. cbn [ls_unget] in *.
      apply (IH _ _ _ _ _ _ H); [|lia]. unfold zlen in *. rewrite app_length. lia.
    - exfalso. destruct (ls_unget (skipn (Z.to_nat n) c) s2) as [[u|e] s3]; [|easy].
      assert (HE : zlen (firstn (Z.to_nat n) c) = n) by (unfold zlen; rewrite firstn_length; lia).
      rewrite HE, Z.sub_diag in H. destruct f; [easy|]. cbn [ls_read_loop] in H. change (Z.eqb 0 0) with true in H. cbn match in H.
      injection H as <- <-. unfold zlen in *. rewrite app_length in HB. lia.
  Qed.
End Read.

(** ** the multipart parser *)
Section Multi.
  Context {R : Type} (rd : nat -> R -> res str * R) (exh : R -> res unit * R).
  Context (reg : registry) (n2 : str -> option N) (mk : str -> res unit) (D : str) (fuel : nat).
  Context (st st' : mset) (Hcs : ms_charset st' = ms_charset st) (Hf : ms_fmem st' = ms_fmem st)
    (Hm : mem_le (ms_dmem st) (ms_dmem st')) (Hn : num_le (ms_dnum st) (ms_dnum st')).

  Lemma read_field_raised name tenc m p s p1 s1 : read_field rd reg st fuel name tenc m p s = (Ok p1, s1) ->
    read_field rd reg st' fuel name tenc m p s = (Ok p1, s1).
  Proof.
    unfold read_field. rewrite Hcs. destruct (match ms_dnum st with Some n => _ | None => false end) eqn:E1; [easy|].
    replace (match ms_dnum st' with Some n => _ | None => false end) with false
      by (destruct (ms_dnum st), (ms_dnum st'); cbn in Hn; lia || reflexivity || contradiction).
    cbv zeta. intros H.
    destruct (ls_read (bi_next (ci_next rd) fuel) fuel (option_map (fun n => (n - p_bytes p)%Z) (ms_dmem st)) s) as [[raw|e] s2] eqn:ER; [|easy].
    destruct (ms_dmem st) as [n|], (ms_dmem st') as [k|]; try contradiction; cbn [mem_le option_map] in *.
    - match type of H with match ?x with Ok _ => _ | Err e => _ end = _ => destruct x as [data|e] eqn:EX end; [|easy].
      destruct (Z.ltb_spec n (p_bytes p + zlen raw + (zlen name + 2))) as [L|L]; [easy|].
      assert (HR : ls_read (bi_next (ci_next rd) fuel) fuel (Some (k - p_bytes p)%Z) s = (Ok raw, s2)).
      { unfold ls_read in *. apply (loop_more _ _ _ _ _ _ _ _ ER); unfold zlen in *; cbn; lia. }
      rewrite HR, EX. replace (Z.ltb k _) with false by (unfold zlen in *; lia). exact H.
    - rewrite ER. exact H.
  Qed.
  Lemma file_loop_raised : forall k b hs cs s, file_loop rd mk st' fuel k b hs cs s = file_loop rd mk st fuel k b hs cs s.
  Proof.
    induction k as [|k IH]; intros b hs cs s; [easy|]. cbn [file_loop]. destruct (ls_next _ s) as [[c| |e] s1]; [|easy|easy].
    match goal with |- context [if b then ?x else ?y] => destruct (if b then x else y) as [[d|e] s2] end; [|easy].
    rewrite Hf. destruct (feed _ _ d hs cs) as [[hs1 cs1]|e]; [|easy]. apply IH.
  Qed.
  Lemma one_part_raised ty m p s p1 s1 : one_part rd reg n2 mk st fuel ty m p s = (Ok p1, s1) ->
    one_part rd reg n2 mk st' fuel ty m p s = (Ok p1, s1).
  Proof.
    unfold one_part. destruct (dget CDISP m) as [[v disp]|]; [|easy]. destruct (dget !"name" disp) as [raw|]; [|easy].
    cbv zeta. destruct (to_native (pstrip raw)) as [name|e]; [|easy]. destruct ty; [easy| |apply read_field_raised].
    unfold read_file. match goal with |- context [match ?x with Ok _ => _ | Err e => (Err e, s) end = _] => destruct x as [[|c f]|e] end; [easy| |easy].
    destruct (match dget !"content-type" m with Some v => v | None => _ end) as [ct extra].
    destruct (new_files _ _ _) as [hs|e]; [|easy]. now rewrite file_loop_raised.
  Qed.
  Lemma parts_loop_raised : forall k p s p1 s1, parts_loop rd reg n2 mk st D fuel k p s = (Ok p1, s1) ->
    parts_loop rd reg n2 mk st' D fuel k p s = (Ok p1, s1).
  Proof.
    induction k as [|k IH]; intros p s p1 s1 H; [easy|]. cbn [parts_loop] in *.
    destruct (bi_init _ _ s D) as [[b|e] s2]; [|destruct e; easy].
    destruct (parse_boundary_stream rd reg fuel (ls_init b None)) as [[[ty m]|e] s3]; [|easy].
    destruct (finish_file p) as [p2|e]; [|easy].
    destruct (one_part rd reg n2 mk st fuel ty m p2 s3) as [[p3|e] s4] eqn:E1; [|easy].
    rewrite (one_part_raised _ _ _ _ _ _ E1). apply (IH _ _ _ _ H).
  Qed.
  Lemma mp_raised csize len hs r x r1 : mp_parse rd exh reg n2 mk st D fuel csize len hs r = (Ok x, r1) ->
    mp_parse rd exh reg n2 mk st' D fuel csize len hs r = (Ok x, r1).
  Proof.
    unfold mp_parse, ms_query. rewrite Hcs, Hf. intros H.
    destruct (querydict reg (Some (mkQS (ms_charset st) (ms_dnum st))) None true) as [q|e] eqn:EQ; [|easy].
    rewrite (querydict_raised _ _ _ _ _ _ _ Hn EQ). destruct (Z.eqb len 0); [exact H|]. cbv zeta in *.
    match type of H with context [parts_loop rd reg n2 mk st D fuel fuel ?p ?s] =>
      destruct (parts_loop rd reg n2 mk st D fuel fuel p s) as [[p1|e] s1] eqn:EL end; [|easy].
    rewrite (parts_loop_raised _ _ _ _ _ EL). exact H.
  Qed.
End Multi.

(** ** requests *)
Section Request.
  Context (reg : registry) (n2 : str -> option N) (mk : str -> res unit) (dm dn : option Z).
  Definition lift (st : sett) : sett := mkS (s_hdr st) (s_fmem st) dm dn (s_charset st) (s_handlers st).
  Definition below (st : sett) : Prop := mem_le (s_dmem st) dm /\ num_le (s_dnum st) dn.
  Definition rel2 {A} (m m' : M A) : Prop := forall st r x st1 r1, below st -> m (st, r) = (Ok x, (st1, r1)) ->
    m' (lift st, r) = (Ok x, (lift st1, r1)) /\ below st1.
  Lemma r2_ret {A} (x : A) : rel2 (mret x) (mret x).
  Proof. intros st r y st1 r1 HB [= <- <- <-]. now split. Qed.
  Lemma r2_raise {A} e (m : M A) : rel2 (mraise e) m. Proof. now intros st r y st1 r1 HB H. Qed.
  Lemma r2_lift {A} (x x' : res A) : (forall a, x = Ok a -> x' = Ok a) -> rel2 (mlift x) (mlift x').
  Proof. intros H st r y st1 r1 HB E. unfold mlift in *. injection E as -> <- <-. now rewrite (H y eq_refl). Qed.
  Lemma r2_req : rel2 mreq mreq. Proof. intros st r y st1 r1 HB [= <- <- <-]. now split. Qed.
  Lemma r2_upd f : rel2 (mupd f) (mupd f). Proof. intros st r y st1 r1 HB [= <- <- <-]. now split. Qed.
  Lemma r2_stream {A} (f f' : l0 -> res A * l0) : (forall s x s1, f s = (Ok x, s1) -> f' s = (Ok x, s1)) -> rel2 (mstream f) (mstream f').
  Proof.
    intros H st r y st1 r1 HB. unfold mstream. cbn [fst snd]. destruct (f (r_stream r)) as [[x|e] s1] eqn:E; [|easy].
    rewrite (H _ _ _ E). intros [= <- <- <-]. now split.
  Qed.
  Lemma r2_bind {A B} (m m' : M A) (f f' : A -> M B) : rel2 m m' -> (forall x, rel2 (f x) (f' x)) -> rel2 (mbind m f) (mbind m' f').
  Proof.
    intros Hm Hf st r y st1 r1 HB H. unfold mbind in *. destruct (m (st, r)) as [[x|e] [st2 r2]] eqn:E; [|easy].
    destruct (Hm _ _ _ _ _ HB E) as [E2 HB2]. rewrite E2. now apply Hf.
  Qed.
  Lemma r2_sett {B} (f f' : sett -> M B) : (forall st, below st -> rel2 (f st) (f' (lift st))) -> rel2 (mbind msett f) (mbind msett f').
  Proof. intros H st r y st1 r1 HB. unfold mbind, msett. cbn [fst]. now apply H. Qed.
  Ltac r2 := repeat lazymatch goal with
    | |- rel2 (mbind msett _) _ => apply r2_sett; intros
    | |- rel2 (mbind _ _) _ => apply r2_bind; [|intros]
    | |- rel2 (mret _) _ => apply r2_ret
    | |- rel2 (mraise _) _ => apply r2_raise
    | |- rel2 mreq _ => apply r2_req
    | |- rel2 (mupd _) _ => apply r2_upd
    end.
  Lemma r2_query q mut : rel2 (new_query reg q mut) (new_query reg q mut).
  Proof. unfold new_query. r2. apply r2_lift. intros a. unfold s_query. cbn [lift s_charset s_dnum]. apply querydict_raised, H. Qed.
  Lemma r2_plain {A} (x : res A) : rel2 (mlift x) (mlift x). Proof. now apply r2_lift. Qed.
  Lemma r2_populate l hs : rel2 (populate reg l hs) (populate reg l hs).
  Proof.
    unfold populate. apply r2_bind; [apply r2_plain|intros [host hs1]]. destruct (split_domain_port host) as [d p]. r2.
    - destruct (header !"Content-Type" hs1); r2. apply r2_plain.
    - destruct (snd _); r2. intros st r y st1 r1 HB [= <- <- <-]. now split.
    - match goal with |- context [r_meta ?r] => destruct (r_meta r) end; r2. destruct (nonempty _); apply r2_query.
  Qed.
  Lemma r2_header : rel2 (parse_request_header reg) (parse_request_header reg).
  Proof.
    unfold parse_request_header. r2. match goal with |- context [r_hp ?r] => destruct (r_hp r) end; [r2|]. r2; [|apply r2_plain|apply r2_plain|apply r2_populate].
    cbn [lift s_hdr]. intros st1 r y st2 r1 HB. cbn [fst snd]. destruct (frame _ (r_stream r)) as [[a b] s1]. intros [= -> <- <-]. now split.
  Qed.
  Lemma r2_mread n : rel2 (m_read n) (m_read n). Proof. apply r2_stream. easy. Qed.
  Lemma loop_ge : forall f max size chunk acc w x k w1, body_loop f max size chunk acc w = (Ok (x, k), w1) -> (size <= k)%Z.
  Proof.
    induction f as [|f IH]; intros max size chunk acc w x k w1; cbn [body_loop]; [easy|]. destruct (_ && _)%bool; [|intros [= _ <- _]; lia].
    unfold mbind. destruct (m_read _ w) as [[c|e] w2]; [|easy]. intros H. apply IH in H. unfold zlen in H. lia.
  Qed.
  Lemma loop_raised n k : (n <= k)%Z -> forall f size chunk acc st r x z st1 r1, body_loop f (Some n) size chunk acc (st, r) = (Ok (x, z), (st1, r1)) ->
    (z <= n)%Z -> below st -> body_loop f (Some k) size chunk acc (lift st, r) = (Ok (x, z), (lift st1, r1)) /\ below st1.
  Proof.
    intros HK. induction f as [|f IH]; intros size chunk acc st r x z st1 r1 H Hz HB; [easy|].
    pose proof (loop_ge _ _ _ _ _ _ _ _ _ H) as HG. cbn [body_loop within_max] in *.
    replace (Z.leb size n) with true in H by lia. replace (Z.leb size k) with true by lia. cbn [andb] in *.
    destruct (nonempty chunk); [|injection H as <- <- <- <-; now split].
    unfold mbind in *. destruct (m_read (Some BLOCK) (st, r)) as [[c|e] [st2 r2]] eqn:ER; [|easy].
    destruct (r2_mread _ _ _ _ _ _ HB ER) as [-> HB2]. now apply IH.
  Qed.
  Lemma r2_body1 : rel2 body1 body1.
  Proof.
    unfold body1. r2. destruct (_ && _)%bool; [r2|]. match goal with |- context [r_body ?r] => destruct (r_body r) end; [r2|].
    match goal with |- context [r_hp ?r] => destruct (r_hp r) end; [|r2]. unfold read_body. apply r2_sett. intros st H.
    apply r2_bind; [apply r2_req|intros rq]. apply r2_bind; [apply r2_mread|intros ch].
    intros st1 r y st2 r1 HB E. unfold mbind in *. cbn [lift s_dmem] in *.
    destruct (s_dmem st) as [n|] eqn:ES.
    - destruct H as [H _]. rewrite ES in H. destruct dm as [k|] eqn:ED; [|contradiction]. cbn [mem_le] in H.
      match type of E with context [body_loop ?f ?a ?b ?c ?d ?w] => destruct (body_loop f a b c d w) as [[[z s]|e] [st3 r3]] eqn:EL end; [|easy].
      cbn [within_max snd fst] in E. destruct (Z.leb_spec s n) as [L|L]; [|easy].
      destruct (loop_raised n k H _ _ _ _ _ _ _ _ _ _ EL L HB) as [-> HB2]. cbn [within_max snd fst].
      replace (Z.leb s k) with true by lia. unfold mupd, mret in *. injection E as <- <- <-. now split.
    - match type of E with context [body_loop ?f ?a ?b ?c ?d ?w] => destruct (body_loop f a b c d w) as [[z|e] w3] end; easy.
  Qed.
  Lemma r2_body : rel2 (body reg) (body reg).
  Proof.
    unfold body. r2. destruct (_ || _)%bool; [apply r2_body1|]. r2; [apply r2_header|apply r2_body1].
  Qed.
  Lemma r2_empty : rel2 (empty_post reg) (empty_post reg). Proof. unfold empty_post. r2. apply r2_query. Qed.
  Lemma r2_upload : rel2 (parse_file_upload reg n2 mk) (parse_file_upload reg n2 mk).
  Proof.
    unfold parse_file_upload. r2. match goal with |- context [r_meta ?r] => destruct (r_meta r) as [m|] end; [|r2]. destruct (m_headers m); r2; [apply r2_plain|].
    apply r2_stream. intros s y s1. cbn [lift s_handlers]. apply mp_raised; try reflexivity; apply H.
  Qed.
  Lemma r2_post : rel2 (parse_post reg n2 mk) (parse_post reg n2 mk).
  Proof.
    unfold parse_post. r2. match goal with |- context [a_ctype ?a] => destruct (a_ctype a) as [c|] end; [|r2].
    destruct (match c with Some c => seqb c CT_MULTI | None => false end).
    - intros st r y st1 r1 HB. destruct (parse_file_upload reg n2 mk (st, r)) as [[pf|e] [st2 r2]] eqn:E.
      + destruct (r2_upload _ _ _ _ _ HB E) as [-> HB2]. intros [= <- <- <-]. now split.
      + destruct e; try easy. unfold mbind. destruct (empty_post reg (st2, r2)) as [[z|e] w]; easy.
    - destruct (match c with Some c => seqb c CT_FORM | None => false end); r2; [apply r2_body|apply r2_query|apply r2_empty].
  Qed.
  Lemma r2_parse_body : rel2 (parse_request_body reg n2 mk) (parse_request_body reg n2 mk).
  Proof.
    unfold parse_request_body. r2. match goal with |- context [r_bp ?r] => destruct (r_bp r) end; [r2|]. r2.
    match goal with |- context [r_hp ?r] => destruct (r_hp r) end; cbn [negb]; [|intros st1 r y st2 r1 HB E; unfold mbind in E; now destruct (empty_post reg _) as [[z|e] w]].
    r2; [now apply r2_stream|]. match goal with |- rel2 (match ?d with [] => _ | _ => _ end) _ => destruct d end; r2; [apply r2_empty|now apply r2_stream|apply r2_post|apply r2_body|].
    cbn [lift s_charset]. apply r2_plain.
  Qed.
  Lemma r2_parse : rel2 (parse reg n2 mk) (parse reg n2 mk).
  Proof. unfold parse. r2; [apply r2_header|apply r2_parse_body]. Qed.
End Request.
