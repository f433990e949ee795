(** * Theorems C92-C94: sizes of uploaded files, and what a parse keeps *)
From Coq Require Import ZifyBool ZifyN ZifyNat.
From Verif Require Import Py PyFacts PyDict Spec StreamModel CodecModel QueryModel Base64Model HeaderModel
  BoundaryModel BoundarySpec BoundaryFacts UploadModel UploadFacts MultipartModel MultipartSem MultipartFacts
  FormSpec FormFacts MultipartInv MultipartSpec MultipartDet SizeFacts FileModel FilesModel PropsPart PropsMultipart PropsFiles.

(** creating a temporary file can fail, but not with the parser's own control exception *)
Definition honest_temp (mk_temp : str -> res unit) : Prop := forall x, mk_temp x <> Err StopFutureHandlers.
Definition all_values {A} (d : dict (list A)) : list A := concat (map snd d).
Definition total {A} (g : A -> nat) (d : dict (list A)) : nat := list_sum (map g (all_values d)).

Lemma total_measure {A} (g : A -> nat) (d : dict (list A)) :
  total g d = list_sum (map (fun e => list_sum (map g (snd e))) d).
Proof.
  unfold total, all_values. induction d as [|[k l] d IH]; [easy|]. cbn [map concat snd]. rewrite map_app, list_sum_app, IH. reflexivity.
Qed.
Lemma start_sizeI st len hs : sizeI (start_state st len hs).
Proof. split; [easy|]. intros H. now cbn in H. Qed.

Section Any.
  Context reg name2cp mk_temp st D s csize len fuel (hs : list handler) qd body post files
    (Hmk : honest_temp mk_temp) (HD : delimiter D) (HA : arrives s body csize len fuel)
    (Hq : querydict reg (Some (ms_query st)) None true = Ok qd)
    (HR : fst (parse_src reg name2cp mk_temp st D fuel csize len hs s) = Ok (post, files)).

  Lemma any_parse : exists p, parses reg name2cp mk_temp st D body (start_state st len hs) (Ok p) /\ post = p_post p /\ files = p_files p.
  Proof.
    destruct HA as (A1 & A2 & A3 & A4 & A5).
    destruct (parse_src_sem reg name2cp mk_temp st D (delim_dok D HD) s csize len hs qd fuel A3 A2 Hq A4) as (o & HP & HO).
    { unfold enough. now rewrite A1. }
    destruct o as [p|e]; [|congruence]. rewrite HO in HR. cbn [fst] in HR. injection HR as <- <-.
    exists p. rewrite A1 in HP. now repeat split.
  Qed.
End Any.

(** ** C92.  The size of an uploaded file *)
Theorem C92_size_is_content :
  forall reg name2cp mk_temp st D s csize len fuel hs qd body post files,
    honest_temp mk_temp -> delimiter D -> arrives s body csize len fuel ->
    querydict reg (Some (ms_query st)) None true = Ok qd ->
    fst (parse_src reg name2cp mk_temp st D fuel csize len hs s) = Ok (post, files) ->
    forall k f, In f (getl k files) -> uf_size f = length (uf_content f) /\ uf_content f <> [] /\ sized (of_upload f).
Proof.
  intros reg name2cp mk_temp st D s csize len fuel hs qd body post files Hmk HD HA Hq HR k f Hin.
  destruct (any_parse reg name2cp mk_temp st D s csize len fuel hs qd body post files HD HA Hq HR) as (p & HP & -> & ->).
  destruct (parses_held mk_temp Hmk reg name2cp st D _ _ _ HP (start_sizeI st len hs) p eq_refl) as [[HS _] _].
  assert (HN : uf_size f <> 0).
  { assert (HT : forall k f, In f (getl k (p_files p)) -> uf_size f <> 0).
    { apply (parses_inv reg name2cp mk_temp st D (fun p => forall k f, In f (getl k (p_files p)) -> uf_size f <> 0)) with (2 := HP) (4 := eq_refl); [|easy].
      clear. intros p t o HI HS. unfold step in HS. destruct (classify reg t) as [[[ty m] payload]|e]; [|now subst o].
      destruct (finish_file p) as [p1|e] eqn:EF; [|now subst o].
      assert (HI1 : forall k f, In f (getl k (p_files p1)) -> uf_size f <> 0).
      { unfold finish_file in EF. destruct (p_old p) as [|x n]; [now injection EF as <-|].
        destruct (file_complete _ _ _ _) as [files|e] eqn:E; cbn [bind] in EF; [|easy]. injection EF as <-. cbn [p_files].
        revert E. generalize (p_hs p) (p_counters p). clear - HI. intros hs. induction hs as [|h hs IH]; intros cs H; cbn [file_complete] in H.
        - now injection H as <-.
        - destruct cs as [|c cs]; [now injection H as <-|].
          destruct (h_complete c h) as [[g|]|e] eqn:E; cbn [bind] in H; [| |easy]; [|now apply (IH cs)].
          destruct (file_truthy g) eqn:ET; [|now apply (IH cs)]. injection H as <-. intros k f. unfold files_append. rewrite getl_dset.
          destruct (seqb k (x :: n)); [|apply HI]. intros [Hg|[<-|[]]]%in_app_or; [now apply (HI (x :: n))|].
          unfold file_truthy in ET. now destruct (Nat.eqb_spec (uf_size g) 0). }
      destruct (part_action name2cp ty m) as [[|name tenc|i b64]|e] eqn:EA.
      - now subst o.
      - subst o. destruct (field_step reg st name tenc m p1 payload) as [p2|e] eqn:E; [|easy]. revert E. unfold field_step.
        destruct (match ms_dnum st with Some n => _ | None => false end); [easy|].
        match goal with |- context [@bind str pst ?x _] => destruct x as [raw|e] end; cbn [bind]; [|easy].
        match goal with |- context [@bind str pst ?x _] => destruct x as [data|e] end; cbn [bind]; [|easy].
        destruct (match ms_dmem st with Some n => _ | None => false end); [easy|].
        destruct (post_append _ _ _ _ _) as [post|e]; cbn [bind]; [|easy]. intros E. injection E as <-. exact HI1.
      - destruct (new_files mk_temp i (p_hs p1)) as [hs|e] eqn:EN; [|now subst o].
        destruct HS as (r & HF & ->). destruct r as [hc|e]; [|easy]. exact HI1.
      - now subst o. }
    now apply (HT k f). }
  pose proof (HS k f Hin) as HE. split; [exact HE|]. split; [intros E; rewrite E in HE; easy|].
  split; cbn; [now destruct (uf_kind f)|]. now rewrite HE.
Qed.
Print Assumptions C92_size_is_content.

(** ** C93.  No amplification *)
Theorem C93_no_amplification :
  forall reg name2cp mk_temp st D s csize len fuel hs qd body post files,
    honest_temp mk_temp -> delimiter D -> arrives s body csize len fuel ->
    querydict reg (Some (ms_query st)) None true = Ok qd ->
    fst (parse_src reg name2cp mk_temp st D fuel csize len hs s) = Ok (post, files) ->
    total (fun e => length (en_data e)) post + total (fun f => length (uf_content f)) files <= length body.
Proof.
  intros reg name2cp mk_temp st D s csize len fuel hs qd body post files Hmk HD HA Hq HR.
  destruct (any_parse reg name2cp mk_temp st D s csize len fuel hs qd body post files HD HA Hq HR) as (p & HP & -> & ->).
  destruct (parses_held mk_temp Hmk reg name2cp st D _ _ _ HP (start_sizeI st len hs) p eq_refl) as [_ HH].
  unfold held, pending, data_bytes, file_bytes in HH. rewrite !total_measure. cbn in HH. lia.
Qed.
Print Assumptions C93_no_amplification.

(** ** C94.  FILE_UPLOAD_MAX_MEMORY_SIZE bounds what uploads keep in memory *)
Definition kept_in_memory (files : dict (list ufile)) : nat :=
  total (fun f => match uf_kind f with InMemory _ => length (uf_content f) | Temporary _ => 0 end) files.
Lemma kept_mem files : kept_in_memory files = mem_bytes files.
Proof.
  unfold kept_in_memory, mem_bytes. rewrite total_measure. f_equal. apply map_ext. intros [k l]. cbn [snd]. f_equal. apply map_ext.
  intros f. unfold in_memory. now destruct (uf_kind f).
Qed.
Theorem C94_default_handler :
  forall reg name2cp mk_temp st D s csize len fuel qd body post files M,
    delimiter D -> arrives s body csize len fuel ->
    querydict reg (Some (ms_query st)) None true = Ok qd -> ms_fmem st = Some M -> (0 <= M)%Z ->
    fst (parse_src reg name2cp mk_temp st D fuel csize len default_handler s) = Ok (post, files) ->
    (Z.of_nat (kept_in_memory files) <= M)%Z.
Proof.
  intros reg name2cp mk_temp st D s csize len fuel qd body post files M HD HA Hq Hst HM HR. rewrite kept_mem.
  destruct (any_parse reg name2cp mk_temp st D s csize len fuel default_handler qd body post files HD HA Hq HR) as (p & HP & -> & ->).
  refine (proj1 (parses_inv reg name2cp mk_temp st D (memI M) _ _ _ _ HP _ p eq_refl)).
  - intros p0 t o HI HS. exact (step_memI mk_temp M reg name2cp st p0 t o Hst HI HS).
  - split; [cbn; lia|]. exists (conv_raw_input (Some M) new_conv). split; [cbn; now rewrite Hst|]. split; [reflexivity|].
    cbn [p_old start_state p_files]. unfold convI. cbn. destruct (Z.leb 0 M); cbn; lia.
Qed.
Print Assumptions C94_default_handler.
(** with MemoryFileUploadHandler and TemporaryFileUploadHandler: when the Content-Length is not too small *)
Theorem C94_two_handlers_partial :
  forall reg name2cp mk_temp st D s csize len fuel hs qd body post files M,
    honest_temp mk_temp -> delimiter D -> arrives s body csize len fuel ->
    querydict reg (Some (ms_query st)) None true = Ok qd -> ms_fmem st = Some M -> (0 <= M)%Z ->
    Forall (fun h => h = HMem new_mem \/ h = HTemp new_temp) hs -> (Z.of_nat (length body) <= len)%Z ->
    fst (parse_src reg name2cp mk_temp st D fuel csize len hs s) = Ok (post, files) ->
    (Z.of_nat (kept_in_memory files) <= M)%Z.
Proof.
  intros reg name2cp mk_temp st D s csize len fuel hs qd body post files M Hmk HD HA Hq Hst HM Hhs Hlen HR. rewrite kept_mem.
  destruct (any_parse reg name2cp mk_temp st D s csize len fuel hs qd body post files HD HA Hq HR) as (p & HP & -> & ->).
  destruct (Z.leb_spec len M) as [HL|HL].
  - destruct (parses_held mk_temp Hmk reg name2cp st D _ _ _ HP (start_sizeI st len hs) p eq_refl) as [_ HH].
    pose proof (mem_le_file (p_files p)). unfold held in HH. cbn in HH. lia.
  - assert (HI : diskI p).
    { refine (parses_inv reg name2cp mk_temp st D diskI _ _ _ _ HP _ p eq_refl).
      - intros p0 t o HI HS. exact (step_diskI mk_temp (ms_fmem st) reg name2cp st p0 t o HI HS eq_refl).
      - split; [reflexivity|]. cbn [start_state p_hs]. rewrite Forall_map. eapply Forall_impl; [|exact Hhs].
        intros h [->| ->]; cbn; [|easy]. rewrite Hst. cbn [le_max]. f_equal. destruct (Z.leb_spec len M); [lia|reflexivity]. }
    destruct HI as [-> _]. lia.
Qed.
Print Assumptions C94_two_handlers_partial.
(** what is missing: the decision trusts the Content-Length, which nothing compares with the body *)
Definition two_handlers : list handler := [HMem new_mem; HTemp new_temp].
Definition small_mem : mset := mkMS !"utf-8" (Some 5%Z) (Some 1000%Z) (Some 10%Z).
Definition ten_body : str :=
  !"--X" ++ crlf ++ !"Content-Disposition: form-data; name=""f""; filename=""a""" ++ crlfcrlf ++ !"0123456789" ++ crlf ++ !"--X--" ++ crlf.
Definition ten_run (len : Z) (hs : list handler) : res (list (bool * nat)) :=
  match fst (parse_src ex_reg no_cp ok_temp small_mem !"--X" (2 * length ten_body + 4) 4096 len hs [SData ten_body]) with
  | Ok (_, files) => Ok (map (fun f => (in_memory f, uf_size f)) (all_values files))
  | Err e => Err e
  end.
Theorem C94_content_length_refuted :
  exists len, (0 < len <= 5)%Z /\ ten_run len two_handlers = Ok [(true, 10)] /\ ms_fmem small_mem = Some 5%Z.
Proof. exists 1%Z. split; [lia|]. split; [vm_compute; reflexivity|reflexivity]. Qed.
Print Assumptions C94_content_length_refuted.
Example C94_case : ten_run 1%Z default_handler = Ok [(false, 10)] /\ ten_run 200%Z two_handlers = Ok [(false, 10)].
Proof. vm_compute. repeat split. Qed.

(** a body with a field and two files, one encoded *)
Definition mixed_body : str :=
  !"--X" ++ crlf ++ !"Content-Disposition: form-data; name=""a""" ++ crlfcrlf ++ !"xyz" ++ crlf ++
  !"--X" ++ crlf ++ !"Content-Disposition: form-data; name=""f""; filename=""a""" ++ crlfcrlf ++ !"0123" ++ crlf ++
  !"--X" ++ crlf ++ !"Content-Disposition: form-data; name=""f""; filename=""b""" ++ crlf ++ !"Content-Transfer-Encoding: base64" ++ crlfcrlf ++ !"QUJDREVG" ++ crlf ++
  !"--X--" ++ crlf.
Example C92_case :
  match fst (parse_src ex_reg no_cp ok_temp small_mem !"--X" (2 * length mixed_body + 4) 4096 1%Z default_handler [SData mixed_body]) with
  | Ok (post, files) => map (fun f => (in_memory f, uf_size f, uf_content f)) (all_values files) = [(true, 4, !"0123"); (false, 6, !"ABCDEF")] /\
      total (fun e => length (en_data e)) post = 3 /\ kept_in_memory files = 4
  | Err _ => False
  end.
Proof. vm_compute. repeat split. Qed.
Example C93_case : honest_temp ok_temp /\ delimiter !"--X" /\
  arrives [SData mixed_body] mixed_body 4096 1%Z (2 * length mixed_body + 4) /\
  (exists qd, querydict ex_reg (Some (ms_query small_mem)) None true = Ok qd).
Proof.
  split; [easy|]. split; [split; [cbn; lia|split; cbn; intuition discriminate]|]. split; [|eexists; reflexivity].
  unfold arrives. split; [apply app_nil_r|]. repeat split; lia.
Qed.
