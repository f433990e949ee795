(** * What the run over the parts of a body gives (claims C23-C27, C31, C36) *)
From Coq Require Import ZifyBool ZifyN ZifyNat.
From Verif Require Import Py PyFacts PyDict Spec StreamModel StreamSpec CodecModel QueryModel Base64Model HeaderModel
  BoundarySpec BoundaryFacts PartFacts UploadModel MultipartModel MultipartSem MultipartFacts MultipartSpec
  MultipartDet FormSpec FormFacts.

Definition with_dnum (st : mset) (n : option Z) : mset := mkMS (ms_charset st) (ms_fmem st) (ms_dmem st) n.
Definition with_dmem (st : mset) (n : option Z) : mset := mkMS (ms_charset st) (ms_fmem st) n (ms_dnum st).
Definition with_fmem (st : mset) (n : option Z) : mset := mkMS (ms_charset st) n (ms_dmem st) (ms_dnum st).

(** the number of fields, and what they count against the memory limit *)
Definition is_kfield (it : item) : bool := match it with KField _ _ _ _ => true | _ => false end.
Definition kfields (its : list item) : nat := length (filter is_kfield its).
Definition ksize (it : item) : nat :=
  match it with KField name _ _ payload => length payload + length name + 2 | _ => 0 end.
Definition kbytes (its : list item) : nat := list_sum (map ksize its).
Definition kplain (it : item) : Prop := match it with KField _ tenc _ _ => is_b64enc tenc = false | _ => True end.
Definition kskip (it : item) : bool := match it with KSkip => true | _ => false end.

Lemma u_finish_idem u : u_finish (u_finish u) = u_finish u.
Proof. unfold u_finish. destruct (u_pend u) as [[n f]|] eqn:E; [easy|now rewrite E]. Qed.
Lemma u_finish_same u : u_post (u_finish u) = u_post u /\ u_bytes (u_finish u) = u_bytes u /\
  u_keys (u_finish u) = u_keys u /\ u_total (u_finish u) = u_total u.
Proof. unfold u_finish. now destruct (u_pend u) as [[n f]|]. Qed.
Lemma u_finish_pend u : u_pend (u_finish u) = None.
Proof. unfold u_finish. now destruct (u_pend u) as [[n f]|] eqn:E. Qed.

Section Limits.
  Context (reg : registry) (mk_temp : str -> res unit) (st : mset) (m : Z).

  Lemma u_field_bk name tenc h payload u r : ms_dmem st = None ->
    u_field reg st name tenc h payload u = Ok r ->
    u_bytes r = (u_bytes u + zlen payload + (zlen name + 2))%Z /\ u_keys r = (u_keys u + 1)%Z.
  Proof.
    intros Hd. unfold u_field. destruct (match ms_dnum st with Some n => _ | None => false end); [easy|].
    rewrite Hd. cbn [bind].
    match goal with |- context [@bind str ust ?x _] => destruct x as [data|e] end; cbn [bind]; [|easy].
    destruct (post_append _ _ _ _ _); cbn [bind]; [|easy]. intros H. injection H as <-. easy.
  Qed.
  Lemma u_field_k name tenc h payload u r :
    u_field reg st name tenc h payload u = Ok r -> u_keys r = (u_keys u + 1)%Z.
  Proof.
    unfold u_field. destruct (match ms_dnum st with Some n => _ | None => false end); [easy|].
    match goal with |- context [@bind str ust ?x _] => destruct x as [raw|e] end; cbn [bind]; [|easy].
    match goal with |- context [@bind str ust ?x _] => destruct x as [data|e] end; cbn [bind]; [|easy].
    destruct (match ms_dmem st with Some n => _ | None => false end); [easy|].
    destruct (post_append _ _ _ _ _); cbn [bind]; [|easy]. intros H. now injection H as <-.
  Qed.

  Lemma run_dnum n : ms_dnum st = None -> forall its u r, u_run reg mk_temp st m its u = Ok r ->
    (u_keys u <= n)%Z ->
    u_run reg mk_temp (with_dnum st (Some n)) m its u =
      if Z.ltb n (u_keys u + Z.of_nat (kfields its)) then Err TooManyFieldsSent else Ok r.
  Proof.
    intros Hd. induction its as [|it its IH]; intros u r HR Hk; cbn [u_run] in *.
    - replace (Z.ltb n _) with false by (cbn; lia). exact HR.
    - destruct (u_step reg mk_temp st m it u) as [u1|e] eqn:ES; cbn [bind] in HR; [|easy].
      destruct (u_finish_same u) as (F1 & F2 & F3 & F4).
      unfold u_step in *. destruct it as [e|  |name tenc h payload|i w].
      + easy.
      + injection ES as <-. cbn [bind]. rewrite (IH _ _ HR) by lia. now rewrite F3.
      + pose proof (u_field_k _ _ _ _ _ _ ES) as HK. unfold u_field in ES |- *. cbn [with_dnum ms_dnum ms_dmem ms_charset] in *.
        rewrite Hd in ES. unfold kfields. cbn [filter is_kfield length].
        destruct (Z.ltb_spec n (u_keys (u_finish u) + 1)).
        * cbn [bind]. now replace (Z.ltb n (u_keys u + _)) with true by lia.
        * rewrite ES. cbn [bind]. rewrite (IH _ _ HR) by lia. unfold kfields.
          replace (u_keys u1 + _)%Z with (u_keys u + Z.of_nat (S (length (filter is_kfield its))))%Z by lia. reflexivity.
      + assert (EK : u_keys u1 = u_keys u).
        { unfold u_file in ES. destruct (if Z.ltb _ _ then _ else _); cbn [bind] in ES; [|easy]. injection ES as <-. cbn. exact F3. }
        rewrite ES. cbn [bind]. rewrite (IH _ _ HR) by lia. now rewrite EK.
  Qed.

  Lemma run_dmem_le n : ms_dmem st = None -> forall its u r, u_run reg mk_temp st m its u = Ok r ->
    (u_bytes u + Z.of_nat (kbytes its) <= n)%Z ->
    u_run reg mk_temp (with_dmem st (Some n)) m its u = Ok r.
  Proof.
    intros Hd. induction its as [|it its IH]; intros u r HR Hk; cbn [u_run] in *; [easy|].
    unfold kbytes in Hk. cbn [map list_sum fold_right] in Hk. change (fold_right Nat.add 0) with list_sum in Hk. fold (kbytes its) in Hk.
    destruct (u_step reg mk_temp st m it u) as [u1|e] eqn:ES; cbn [bind] in HR; [|easy].
    destruct (u_finish_same u) as (F1 & F2 & F3 & F4).
    unfold u_step in *. destruct it as [e|  |name tenc h payload|i w]; cbn [ksize] in Hk.
    - easy.
    - injection ES as <-. cbn [bind]. apply IH; [easy|]. lia.
    - pose proof (u_field_bk _ _ _ _ _ _ Hd ES) as [HB _]. unfold zlen in HB.
      assert (EF : u_field reg (with_dmem st (Some n)) name tenc h payload (u_finish u) = Ok u1).
      { unfold u_field in ES |- *. cbn [with_dmem ms_dnum ms_dmem ms_charset] in *. rewrite Hd in ES.
        destruct (match ms_dnum st with Some n => _ | None => false end); [easy|].
        replace (Z.ltb (n - u_bytes (u_finish u)) 0) with false by lia. rewrite firstn_all2 by lia. cbn [bind] in *.
        match goal with |- context [@bind str ust ?x _] => destruct x as [data|e] end; cbn [bind] in *; [|easy].
        unfold zlen in *. replace (Z.ltb n _) with false by lia. exact ES. }
      rewrite EF. cbn [bind]. apply IH; [easy|]. rewrite HB, F2. lia.
    - assert (EB : u_bytes u1 = u_bytes u).
      { unfold u_file in ES. destruct (if Z.ltb _ _ then _ else _); cbn [bind] in ES; [|easy]. injection ES as <-. cbn. exact F2. }
      rewrite ES. cbn [bind]. apply IH; [easy|]. lia.
  Qed.

  Lemma run_dmem_gt n : ms_dmem st = None -> forall its u r, u_run reg mk_temp st m its u = Ok r ->
    Forall kplain its -> (u_bytes u <= n < u_bytes u + Z.of_nat (kbytes its))%Z ->
    u_run reg mk_temp (with_dmem st (Some n)) m its u = Err RequestDataTooBig.
  Proof.
    intros Hd. induction its as [|it its IH]; intros u r HR HP Hk; cbn [u_run] in *; [cbn in Hk; lia|].
    unfold kbytes in Hk. cbn [map list_sum fold_right] in Hk. change (fold_right Nat.add 0) with list_sum in Hk. fold (kbytes its) in Hk.
    inversion_clear HP as [|? ? HP1 HP2].
    destruct (u_step reg mk_temp st m it u) as [u1|e] eqn:ES; cbn [bind] in HR; [|easy].
    destruct (u_finish_same u) as (F1 & F2 & F3 & F4).
    unfold u_step in *. destruct it as [e|  |name tenc h payload|i w]; cbn [ksize] in Hk.
    - easy.
    - injection ES as <-. cbn [bind]. apply (IH _ _ HR); [easy|]. lia.
    - pose proof (u_field_bk _ _ _ _ _ _ Hd ES) as [HB _]. unfold zlen in HB. cbn in HP1.
      destruct (Z.le_gt_cases (u_bytes u1) n) as [Hle|Hgt].
      + assert (EF : u_field reg (with_dmem st (Some n)) name tenc h payload (u_finish u) = Ok u1).
        { unfold u_field in ES |- *. cbn [with_dmem ms_dnum ms_dmem ms_charset] in *. rewrite Hd in ES.
          destruct (match ms_dnum st with Some n => _ | None => false end); [easy|].
          replace (Z.ltb (n - u_bytes (u_finish u)) 0) with false by lia. rewrite firstn_all2 by lia. cbn [bind] in *.
          match goal with |- context [@bind str ust ?x _] => destruct x as [data|e] end; cbn [bind] in *; [|easy].
          unfold zlen in *. replace (Z.ltb n _) with false by lia. exact ES. }
        rewrite EF. cbn [bind]. apply (IH _ _ HR); [easy|]. rewrite HB, F2. rewrite HB, F2 in Hle. lia.
      + assert (EF : u_field reg (with_dmem st (Some n)) name tenc h payload (u_finish u) = Err RequestDataTooBig).
        { unfold u_field in ES |- *. cbn [with_dmem ms_dnum ms_dmem ms_charset] in *.
          destruct (match ms_dnum st with Some n => _ | None => false end); [easy|].
          replace (Z.ltb (n - u_bytes (u_finish u)) 0) with false by lia. rewrite HP1. cbn [bind].
          unfold zlen. rewrite firstn_length. replace (Z.ltb n _) with true; [easy|]. lia. }
        now rewrite EF.
    - assert (EB : u_bytes u1 = u_bytes u).
      { unfold u_file in ES. destruct (if Z.ltb _ _ then _ else _); cbn [bind] in ES; [|easy]. injection ES as <-. cbn. exact F2. }
      rewrite ES. cbn [bind]. apply (IH _ _ HR); [easy|]. lia.
  Qed.

  (** pieces that are ignored change nothing, except that a file at the very end is not stored *)
  Lemma u_step_finish it u : u_step reg mk_temp st m it (u_finish u) = u_step reg mk_temp st m it u.
  Proof. unfold u_step. now rewrite u_finish_idem. Qed.
  Lemma run_skips : forall its u, u_run reg mk_temp st m (its ++ [KSkip]) u =
    u_run reg mk_temp st m (filter (fun it => negb (kskip it)) its ++ [KSkip]) u.
  Proof.
    induction its as [|it its IH]; intros u; [easy|]. cbn [app filter]. destruct it; cbn [kskip negb app u_run].
    1,3,4: destruct (u_step _ _ _ _ _ u); cbn [bind]; [apply IH|easy].
    cbn [u_step bind]. rewrite IH.
    destruct (filter (fun it => negb (kskip it)) its ++ [KSkip]) as [|it2 its2] eqn:E.
    { now destruct (filter _ its). }
    cbn [u_run]. now rewrite u_step_finish.
  Qed.
End Limits.

(** ** Where files end up *)
(** the files of a body in order, each with its field name; [tot]: file bytes before *)
Fixpoint placed (m : Z) (tot : nat) (its : list item) : list (str * ufile) :=
  match its with
  | [] => []
  | KFile i w :: r => (fi_field i, upload m (tot + length w) i w) :: placed m (tot + length w) r
  | _ :: r => placed m tot r
  end.
(** the file bytes of a list of parts *)
Fixpoint fbytes (its : list item) : nat :=
  match its with
  | [] => 0
  | KFile _ w :: r => length w + fbytes r
  | _ :: r => fbytes r
  end.
Lemma placed_app m : forall a b tot, placed m tot (a ++ b) = placed m tot a ++ placed m (tot + fbytes a) b.
Proof.
  induction a as [|it a IH]; intros b tot; cbn [app placed fbytes]; [now rewrite Nat.add_0_r|].
  destruct it; rewrite IH; try easy. cbn. now rewrite Nat.add_assoc.
Qed.
Definition stored (k : str) (l : list (str * ufile)) : list ufile :=
  map snd (filter (fun nf => seqb k (fst nf) && nonempty k && negb (Nat.eqb (uf_size (snd nf)) 0)) l).
Lemma stored_app k a b : stored k (a ++ b) = stored k a ++ stored k b.
Proof. unfold stored. now rewrite filter_app, map_app. Qed.

Section Placed.
  Context (reg : registry) (mk_temp : str -> res unit) (st : mset) (m : Z).

  Lemma finish_stored u k : getl k (u_files (u_finish u)) =
    getl k (u_files u) ++ stored k (match u_pend u with Some x => [x] | None => [] end).
  Proof.
    unfold u_finish. destruct (u_pend u) as [[n f]|]; [|cbn; now rewrite app_nil_r]. cbn [u_files].
    unfold stored. cbn [filter fst snd].
    destruct (seqb k n) eqn:E.
    - apply seqb_eq in E. subst n. cbn [andb]. destruct (nonempty k && negb (Nat.eqb (uf_size f) 0)).
      + unfold files_append, getl. rewrite dget_dset, seqb_refl. easy.
      + cbn. now rewrite app_nil_r.
    - cbn [andb map]. rewrite app_nil_r. destruct (nonempty n && _); [|easy].
      unfold files_append, getl. now rewrite dget_dset, E.
  Qed.
  Lemma run_placed : forall its u r, u_run reg mk_temp st m its u = Ok r ->
    forall k, getl k (u_files (u_finish r)) = getl k (u_files (u_finish u)) ++ stored k (placed m (u_total u) its).
  Proof.
    induction its as [|it its IH]; intros u r HR k; cbn [u_run] in HR.
    - injection HR as <-. cbn. now rewrite app_nil_r.
    - destruct (u_step reg mk_temp st m it u) as [u1|e] eqn:ES; cbn [bind] in HR; [|easy].
      rewrite (IH u1 r HR k). destruct (u_finish_same u) as (F1 & F2 & F3 & F4).
      unfold u_step in ES. destruct it as [e|  |name tenc h payload|i w]; cbn [placed].
      + easy.
      + injection ES as <-. now rewrite u_finish_idem, F4.
      + assert (E : u_files u1 = u_files (u_finish u) /\ u_pend u1 = u_pend (u_finish u) /\ u_total u1 = u_total (u_finish u)).
        { unfold u_field in ES. destruct (match ms_dnum st with Some n => _ | None => false end); [easy|].
          match goal with _ : context [@bind str ust ?x _] |- _ => destruct x as [raw|e] end; cbn [bind] in ES; [|easy].
          match goal with _ : context [@bind str ust ?x _] |- _ => destruct x as [data|e] end; cbn [bind] in ES; [|easy].
          destruct (match ms_dmem st with Some n => _ | None => false end); [easy|].
          destruct (post_append _ _ _ _ _); cbn [bind] in ES; [|easy]. now injection ES as <-. }
        destruct E as (E1 & E2 & E3). rewrite E3, F4. f_equal. rewrite (finish_stored u1), E1, E2, u_finish_pend. cbn. now rewrite app_nil_r.
      + unfold u_file in ES. destruct (if Z.ltb _ _ then _ else _); cbn [bind] in ES; [|easy]. injection ES as <-.
        rewrite finish_stored. cbn [u_files u_pend u_total]. rewrite F4. rewrite <- app_assoc. f_equal.
        change ((fi_field i, upload m (u_total u + length w) i w) :: placed m (u_total u + length w) its)
          with ([(fi_field i, upload m (u_total u + length w) i w)] ++ placed m (u_total u + length w) its).
        now rewrite stored_app.
  Qed.

  (** ** The limit on file memory only decides where files are kept *)
  Definition same_file (f g : ufile) : Prop :=
    uf_name f = uf_name g /\ uf_content f = uf_content g /\ uf_size f = uf_size g /\ uf_ctype f = uf_ctype g /\
    uf_charset f = uf_charset g /\ uf_extra f = uf_extra g /\ uf_tenc f = uf_tenc g.
End Placed.

Lemma stored_same k m1 m2 : forall its t1 t2,
  Forall2 same_file (stored k (placed m1 t1 its)) (stored k (placed m2 t2 its)).
Proof.
  induction its as [|it its IH]; intros t1 t2; cbn [placed]; [constructor|].
  destruct it; try apply IH. unfold stored. cbn [filter fst snd upload uf_size].
  destruct (seqb k (fi_field i) && nonempty k && negb (Nat.eqb (length content) 0)); [|apply IH].
  cbn [map snd]. constructor; [|apply IH]. unfold same_file. cbn. easy.
Qed.

Section Spill.
  Context (reg : registry) (mk_temp : str -> res unit) (Hmk : forall s, exists x, mk_temp s = Ok x).

  Definition same_but_files (a b : ust) : Prop :=
    u_post a = u_post b /\ u_bytes a = u_bytes b /\ u_keys a = u_keys b.
  Lemma run_spill st m1 m2 f1 f2 : forall its a b, same_but_files a b ->
    match u_run reg mk_temp (with_fmem st f1) m1 its a, u_run reg mk_temp (with_fmem st f2) m2 its b with
    | Ok a', Ok b' => same_but_files a' b'
    | Err x, Err y => x = y
    | _, _ => False
    end.
  Proof.
    induction its as [|it its IH]; intros a b HS; cbn [u_run]; [easy|].
    assert (HSF : same_but_files (u_finish a) (u_finish b)).
    { destruct (u_finish_same a) as (A1 & A2 & A3 & _), (u_finish_same b) as (B1 & B2 & B3 & _).
      destruct HS as (S1 & S2 & S3). unfold same_but_files. now rewrite A1, A2, A3, B1, B2, B3. }
    clear HS. unfold u_step. destruct it as [e|  |name tenc h payload|i w]; cbn [bind].
    - easy.
    - now apply IH.
    - destruct HSF as (S1 & S2 & S3). unfold u_field, with_fmem. cbn [ms_dnum ms_dmem ms_charset]. rewrite S1, S2, S3.
      destruct (match ms_dnum st with Some n => _ | None => false end); cbn [bind]; [easy|].
      match goal with |- context [@bind str ust ?x _] => destruct x as [raw|e] end; cbn [bind]; [|easy].
      match goal with |- context [@bind str ust ?x _] => destruct x as [data|e] end; cbn [bind]; [|easy].
      destruct (match ms_dmem st with Some n => _ | None => false end); cbn [bind]; [easy|].
      destruct (post_append _ _ _ _ _); cbn [bind]; [|easy]. now apply IH.
    - unfold u_file. destruct (Hmk (temp_suffix (fi_name i))) as [x Hx]. rewrite Hx.
      assert (EX : forall b1 : bool, exists y, (if b1 then Ok x else Ok tt : res unit) = Ok y) by (intros []; eauto).
      destruct (EX (Z.ltb m1 (Z.of_nat (u_total (u_finish a) + length w)))) as [y1 ->].
      destruct (EX (Z.ltb m2 (Z.of_nat (u_total (u_finish b) + length w)))) as [y2 ->].
      cbn [bind]. apply IH. destruct HSF as (S1 & S2 & S3). now split.
  Qed.
End Spill.
