(** * Any body, with the default handler: the pieces visited and what is kept of them (claims C30, C36) *)
From Coq Require Import ZifyBool ZifyN ZifyNat Sorted.
From Verif Require Import Py PyFacts PyDict Spec StreamModel StreamSpec StreamFacts CodecModel QueryModel
  Base64Model HeaderModel BoundaryModel BoundarySpec BoundaryFacts PartFacts UploadModel
  MultipartModel MultipartSem MultipartFacts MultipartSpec MultipartDet FormSpec UploadFacts MultipartInv ItemFacts BodyFacts.

(** base64 text, decoded in groups whose number of characters is a multiple of four *)
Inductive decodes : str -> str -> Prop :=
| dc_nil : decodes [] []
| dc_cons c rest d w : length (remove_ws c) mod 4 = 0 -> b64decode (remove_ws c) = Ok d ->
    decodes rest w -> decodes (c ++ rest) (d ++ w).
Definition content_rel (b64 : bool) (payload w : str) : Prop := if b64 then decodes payload w else w = payload.

Definition item_rel (reg : registry) (name2cp : str -> option N) (t : str) (it : item) : Prop :=
  match classify reg t with
  | Err e => it = KErr e
  | Ok (ty, m, payload) =>
      match part_action name2cp ty m with
      | Err e => it = KErr e
      | Ok ASkip => it = KSkip
      | Ok (AField name tenc) => it = KField name tenc m payload
      | Ok (AFile i b64) => exists w, content_rel b64 payload w /\ it = KFile i w
      end
  end.

(** the pieces the loop visits, with the text after each of them if a delimiter closes it;
    after an ignored piece of 1024 bytes or more the loop may go on inside it *)
Definition visit := (str * option str * item)%type.
Definition v_text (v : visit) : str := fst (fst v).
Definition v_after (v : visit) : option str := snd (fst v).
Definition v_item (v : visit) : item := snd v.
Inductive visits (D : str) : str -> list visit -> Prop :=
| vi_nil : visits D [] []
| vi_cut r t af it vs : r <> [] -> block D r t af -> visits D (odef af) vs -> visits D r ((t, af, it) :: vs)
| vi_leak r t af vs k : r <> [] -> block D r t af -> head_size <= k <= length t ->
    visits D (skipn k r) vs -> visits D r ((t, af, KSkip) :: vs).

Section Run.
  Context (reg : registry) (name2cp : str -> option N) (mk_temp : str -> res unit) (st : mset) (m : Z).
  Context (Hst : ms_fmem st = Some m) (Hmk : forall x, mk_temp x <> Err StopFutureHandlers).

  Lemma fed_rel b t hc o : fed mk_temp (Some m) b t hc o ->
    forall T i w0 k hc', hc = ([HConv (conv_of m T i w0)], [k]) -> o = Ok hc' ->
    exists w, content_rel b t w /\ full mk_temp m T i w0 k w = Ok hc'.
  Proof.
    induction 1 as [b hc|c rest hc hc1 o HF HR IH|c rest hc e HF|c rest x hc hc1 o Hmod HD HF HR IH
                   |c rest x hc e Hmod HD HF|c rest hc e Hmod HD|rest hc Hmod]; intros T i w0 k hc' -> E; try easy; cbn [fst snd] in *.
    - injection E as <-. exists []. split; [destruct b; [constructor|reflexivity]|]. apply full_nil.
    - rewrite (feed_conv name2cp mk_temp m Hmk) in HF. destruct (spill mk_temp m T (length c) i) as [u|e] eqn:ES; cbn [bind] in HF; [|easy].
      injection HF as <-. destruct (IH _ _ _ _ _ eq_refl E) as (w & Hw & HFu). cbn [content_rel] in Hw. subst w.
      exists (c ++ rest). split; [reflexivity|]. rewrite <- HFu. symmetry. now apply (full_app mk_temp m T i w0 k c rest u).
    - rewrite (feed_conv name2cp mk_temp m Hmk) in HF. destruct (spill mk_temp m T (length x) i) as [u|e] eqn:ES; cbn [bind] in HF; [|easy].
      injection HF as <-. destruct (IH _ _ _ _ _ eq_refl E) as (w & Hw & HFu). cbn [content_rel] in Hw.
      exists (x ++ w). split; [now constructor|]. rewrite <- HFu. symmetry. now apply (full_app mk_temp m T i w0 k x w u).
  Qed.

  Lemma step_rel p u t o : abs m p u -> step reg name2cp mk_temp st p t o -> (forall e, o <> OErr e) ->
    exists it u' p', item_rel reg name2cp t it /\ u_step reg mk_temp st m it u = Ok u' /\ abs m p' u' /\
      o = match it with KSkip => OSkip p' | _ => ODone p' end.
  Proof.
    intros HA HS HO.
    assert (HD : forall it, item_of reg name2cp t it -> item_rel reg name2cp t it ->
      exists it u' p', item_rel reg name2cp t it /\ u_step reg mk_temp st m it u = Ok u' /\ abs m p' u' /\
        o = match it with KSkip => OSkip p' | _ => ODone p' end).
    { intros it HI HIR. pose proof (step_det reg name2cp mk_temp st m Hst Hmk p u t it o HA HI HS) as H.
      destruct (u_step reg mk_temp st m it u) as [u'|e] eqn:E; [|now apply HO in H]. destruct H as (p' & Ho & HA').
      now exists it, u', p'. }
    unfold item_of, item_rel, step in *.
    destruct (classify reg t) as [[[ty h] payload]|e] eqn:EC; [|now apply (HD (KErr e))].
    destruct (part_action name2cp ty h) as [[|name tenc|i b64]|e] eqn:EP.
    - now apply (HD KSkip).
    - now apply (HD (KField name tenc h payload)).
    - clear HD. destruct (finish_abs m p u HA) as (p1 & EF & HA1 & HN). rewrite EF in HS. set (u1 := u_finish u) in *.
      destruct HA1 as (H1 & H2 & H3 & H4 & c & Hh & HR & HP).
      rewrite Hh, (new_files_conv mk_temp m Hmk i c _ HR) in HS.
      destruct (if Z.ltb m (Z.of_nat (u_total u1)) then mk_temp (temp_suffix (fi_name i)) else Ok tt) as [x|e] eqn:E1; cbn [bind] in HS;
        [|now apply HO in HS].
      destruct HS as (r & HF & Ho). rewrite Hst in HF. destruct r as [hc|e]; [|now apply HO in Ho].
      destruct (fed_rel _ _ _ _ HF (u_total u1) i [] 0 hc eq_refl eq_refl) as (w & Hw & Hfull).
      pose proof (file_total name2cp mk_temp m Hmk (u_total u1) w i) as HT. rewrite E1 in HT. cbn [bind] in HT.
      unfold full in Hfull. rewrite HT in Hfull. exists (KFile i w).
      unfold u_step, u_file. fold u1.
      destruct (Z.ltb m (Z.of_nat (u_total u1 + length w))) eqn:E2.
      + destruct (mk_temp (temp_suffix (fi_name i))) as [y|e] eqn:E3; cbn [bind] in *; [|easy]. injection Hfull as <-. subst o.
        eexists _, _. split; [now exists w|]. split; [reflexivity|]. split; [|reflexivity]. cbn. repeat (split; [easy|]).
        eexists. split; [reflexivity|]. split; [apply conv_of_rel|]. split; [easy|]. now exists i, w.
      + cbn [bind] in *. injection Hfull as <-. subst o.
        eexists _, _. split; [now exists w|]. split; [reflexivity|]. split; [|reflexivity]. cbn. repeat (split; [easy|]).
        eexists. split; [reflexivity|]. split; [apply conv_of_rel|]. split; [easy|]. now exists i, w.
    - now apply (HD (KErr e)).
  Qed.

  Theorem run_rel D : forall r p o, parses reg name2cp mk_temp st D r p o -> forall u p', abs m p u -> o = Ok p' ->
    exists vs u', visits D r vs /\ Forall (fun v => item_rel reg name2cp (v_text v) (v_item v)) vs /\
      u_run reg mk_temp st m (map v_item vs) u = Ok u' /\ abs m p' u'.
  Proof.
    intros r p o HP. induction HP as [p|r t af p e Hr Hb HS|r t af p p1 o Hr Hb HS HP IH|r t af p p1 o Hr Hb HS HP IH
      |r t af p p1 k o Hr Hb HS Hk HP IH]; intros u p' HA E; try easy.
    - injection E as <-. exists [], u. split; [constructor|]. split; [constructor|]. now split.
    - destruct (step_rel p u t _ HA HS ltac:(easy)) as (it & u1 & p2 & HI & HU & HA1 & Ho).
      assert (p2 = p1) as -> by (destruct it; congruence).
      destruct (IH u1 p' HA1 E) as (vs & u' & HV & HF & HR & HA'). exists ((t, af, it) :: vs), u'.
      split; [now constructor|]. split; [now constructor|]. split; [|easy]. cbn [map v_item snd u_run]. now rewrite HU.
    - destruct (step_rel p u t _ HA HS ltac:(easy)) as (it & u1 & p2 & HI & HU & HA1 & Ho).
      assert (p2 = p1) as -> by (destruct it; congruence).
      destruct (IH u1 p' HA1 E) as (vs & u' & HV & HF & HR & HA'). exists ((t, af, it) :: vs), u'.
      split; [now constructor|]. split; [now constructor|]. split; [|easy]. cbn [map v_item snd u_run]. now rewrite HU.
    - destruct (step_rel p u t _ HA HS ltac:(easy)) as (it & u1 & p2 & HI & HU & HA1 & Ho).
      assert (it = KSkip) as -> by (destruct it; congruence). assert (p2 = p1) as -> by congruence.
      destruct (IH u1 p' HA1 E) as (vs & u' & HV & HF & HR & HA'). exists ((t, af, KSkip) :: vs), u'.
      split; [now apply (vi_leak D r t af vs k)|]. split; [now constructor|]. split; [|easy]. cbn [map v_item snd u_run]. now rewrite HU.
  Qed.
End Run.

(** visited pieces are pieces of the body *)
Lemma visits_in D r vs : visits D r vs -> forall v, In v vs -> exists a b, r = a ++ b /\ b <> [] /\ block D b (v_text v) (v_after v).
Proof.
  induction 1 as [|r t af it vs Hr Hb HV IH|r t af vs k Hr Hb Hk HV IH]; intros v Hv; [easy|..].
  - destruct Hv as [<-|Hv]; [now exists [], r|]. destruct (IH v Hv) as (a & b & E & Hn & H).
    destruct Hb as [u w Hf|Hn']; cbn [odef] in *; [|now destruct a; [destruct b|]].
    exists (u ++ D ++ a), b. split; [|easy]. destruct Hf as [-> _]. rewrite E. now rewrite <- !app_assoc.
  - destruct Hv as [<-|Hv]; [now exists [], r|]. destruct (IH v Hv) as (a & b & E & Hn & H).
    exists (firstn k r ++ a), b. split; [|easy]. rewrite <- app_assoc, <- E. symmetry. apply firstn_skipn.
Qed.
(** a piece that is not ignored and not closed is the last one *)
Lemma visits_open D r vs : visits D r vs -> forall vs1 v v2 vs2, vs = vs1 ++ v :: v2 :: vs2 -> v_item v <> KSkip -> v_after v <> None.
Proof.
  induction 1 as [|r t af it vs Hr Hb HV IH|r t af vs k Hr Hb Hk HV IH]; intros vs1 v v2 vs2 E Hi.
  - destruct vs1; discriminate.
  - destruct vs1 as [|v0 vs1]; cbn in E.
    + injection E as <- ->. cbn. intros ->. cbn in HV. inversion HV; congruence.
    + injection E as _ ->. now apply (IH vs1 v v2 vs2).
  - destruct vs1 as [|v0 vs1]; cbn in E.
    + injection E as <- ->. now cbn in Hi.
    + injection E as _ ->. now apply (IH vs1 v v2 vs2).
Qed.

Lemma placed_in m : forall its tot n f, In (n, f) (placed m tot its) ->
  exists a i w b, its = a ++ KFile i w :: b /\ n = fi_field i /\ f = upload m (tot + fbytes (a ++ [KFile i w])) i w.
Proof.
  induction its as [|it its IH]; intros tot n f H; [easy|]. cbn [placed] in H.
  assert (HT : forall tot', In (n, f) (placed m tot' its) -> (tot' = tot + fbytes [it]) ->
     exists a i w b, it :: its = a ++ KFile i w :: b /\ n = fi_field i /\ f = upload m (tot + fbytes (a ++ [KFile i w])) i w).
  { intros tot' H1 ->. destruct (IH _ _ _ H1) as (a & i & w & b & -> & -> & ->). exists (it :: a), i, w, b.
    split; [easy|]. split; [easy|]. f_equal. cbn [app fbytes]. destruct it; cbn [fbytes]; lia. }
  destruct it as [e| |name tenc h payload|i w].
  - apply (HT tot H). cbn. lia.
  - apply (HT tot H). cbn. lia.
  - apply (HT tot H). cbn. lia.
  - destruct H as [H|H]; [|apply (HT _ H); cbn; lia]. injection H as <- <-. exists [], i, w, its. split; [easy|]. split; [easy|].
    f_equal. cbn. lia.
Qed.
Lemma stored_in k l f : In f (stored k l) -> In (k, f) l.
Proof.
  unfold stored. intros H. apply in_map_iff in H as ((n & g) & <- & H). apply filter_In in H as [H1 H2]. cbn in *.
  destruct (seqb k n) eqn:E; [|easy]. apply seqb_eq in E. now subst n.
Qed.

Lemma classify_payload reg t ty h payload i b name2cp : classify reg t = Ok (ty, h, payload) ->
  part_action name2cp ty h = Ok (AFile i b) -> exists hd, t = hd ++ crlfcrlf ++ payload.
Proof.
  unfold classify. destruct (find crlfcrlf (firstn head_size t)) as [j|] eqn:EF.
  - destruct (header_meta reg (split crlf (firstn j t)) RAW []) as [hh|e]; cbn [bind]; [|easy]. intros E _. injection E as _ _ <-.
    exists (firstn j t). apply find_first_occ in EF as (u & v & [E _] & <-).
    assert (Et : t = u ++ crlfcrlf ++ v ++ skipn head_size t).
    { rewrite <- (firstn_skipn head_size t) at 1. rewrite E. now rewrite <- !app_assoc. }
    set (z := v ++ skipn head_size t) in Et. clearbody z. subst t. rewrite firstn_app_exact.
    replace (length u + 4) with (length (u ++ crlfcrlf)) by (rewrite app_length; reflexivity).
    rewrite app_assoc at 2. now rewrite skipn_app_exact.
  - intros E. injection E as <- <- <-. now unfold part_action.
Qed.

Lemma forall2_impl {A B} (P Q : A -> B -> Prop) : (forall a b, P a b -> Q a b) -> forall l l', Forall2 P l l' -> Forall2 Q l l'.
Proof. intros H l l'. induction 1; constructor; auto. Qed.
(** where the visited pieces begin *)
Definition starts (D r : str) (n : nat) (v : visit) : Prop := n < length r /\ block D (skipn n r) (v_text v) (v_after v).
Lemma starts_app D x r n v : starts D r n v -> starts D (x ++ r) (length x + n) v.
Proof. intros [H1 H2]. split; [rewrite app_length; lia|]. now rewrite <- skipn_skipn', skipn_app_exact. Qed.
Lemma sorted_shift k : forall ns, StronglySorted lt ns -> StronglySorted lt (map (fun n => k + n) ns).
Proof.
  induction 1 as [|n ns HS IH HF]; cbn; constructor; [easy|]. apply Forall_map. eapply Forall_impl; [|exact HF]. cbn. intros. lia.
Qed.
Lemma visits_at D r vs : D <> [] -> visits D r vs -> exists ns, Forall2 (starts D r) ns vs /\ StronglySorted lt ns.
Proof.
  intros HD. induction 1 as [|r t af it vs Hr Hb HV IH|r t af vs k Hr Hb Hk HV IH].
  - exists []. split; constructor.
  - destruct IH as (ns & HF & HS).
    assert (HX : exists x, r = x ++ odef af /\ (0 < length x)).
    { destruct Hb as [u w [-> _]|Hn]; cbn [odef].
      - exists (u ++ D). split; [now rewrite <- app_assoc|]. rewrite app_length. destruct D; [easy|cbn; lia].
      - exists r. split; [now rewrite app_nil_r|]. destruct r; [easy|cbn; lia]. }
    destruct HX as (x & Ex & Hx). exists (0 :: map (fun n => length x + n) ns). split.
    + constructor; [split; [cbn; destruct r; [easy|cbn; lia]|exact Hb]|].
      rewrite Ex. clear -HF. induction HF; cbn; constructor; [now apply starts_app|easy].
    + constructor; [now apply sorted_shift|]. apply Forall_map, Forall_forall. intros. lia.
  - destruct IH as (ns & HF & HS).
    assert (Hlen : length t <= length r).
    { destruct Hb as [u w [-> _]|Hn]; [|lia]. rewrite app_length. pose proof (trim_eol_length u). lia. }
    assert (Ex : r = firstn k r ++ skipn k r) by (symmetry; apply firstn_skipn).
    assert (Hx : length (firstn k r) = k) by (rewrite firstn_length; lia).
    exists (0 :: map (fun n => length (firstn k r) + n) ns). split.
    + constructor; [split; [cbn; destruct r; [easy|cbn; lia]|exact Hb]|].
      rewrite Ex at 1. clear -HF. induction HF; cbn; constructor; [now apply starts_app|easy].
    + constructor; [now apply sorted_shift|]. apply Forall_map, Forall_forall. unfold head_size in Hk. intros. lia.
Qed.
Lemma visits_last_open D r vs : visits D r vs -> forall v, In v (removelast vs) -> v_item v <> KSkip -> v_after v <> None.
Proof.
  intros HV v Hv Hi. destruct vs as [|v0 vs0] using rev_ind; [easy|]. clear IHvs0. rewrite removelast_last in Hv.
  apply in_split in Hv as (l1 & l2 & ->). rewrite <- app_assoc in HV. cbn in HV.
  destruct l2 as [|w l2]; cbn in HV.
  - eapply (visits_open D r _ HV l1 v v0 []); easy.
  - eapply (visits_open D r _ HV l1 v w (l2 ++ [v0])); easy.
Qed.

(** ** What every file of every body is
    [complete_part … n i w]: the piece of the body that begins at offset [n] is closed by a delimiter, is a
    file part described by [i], and [w] is all of its payload (or what the payload encodes in base64) *)
Definition complete_part (reg : registry) (name2cp : str -> option N) (D body : str) (n : nat) (i : finfo) (w : str) : Prop :=
  exists a u v hd payload b64, body = a ++ u ++ D ++ v /\ length a = n /\ first_occ D (u ++ D ++ v) u v /\
    trim_eol u = hd ++ crlfcrlf ++ payload /\ content_rel b64 payload w /\
    exists ty h, classify reg (trim_eol u) = Ok (ty, h, payload) /\ part_action name2cp ty h = Ok (AFile i b64).

Lemma run_last reg mk_temp st m : forall its it u r, u_run reg mk_temp st m (its ++ [it]) u = Ok r ->
  exists u1, u_run reg mk_temp st m its u = Ok u1 /\ u_files r = u_files (u_finish u1).
Proof.
  induction its as [|x its IH]; intros it u r H; cbn [app u_run] in *.
  - exists u. split; [easy|]. destruct (u_step reg mk_temp st m it u) as [u1|e] eqn:E; cbn [bind] in H; [|easy]. injection H as ->.
    unfold u_step in E. destruct it as [e|  |name tenc h payload|i w]; cbn in E.
    + easy.
    + now injection E as <-.
    + unfold u_field in E. destruct (match ms_dnum st with Some n => _ | None => false end); [easy|].
      match goal with _ : context [@bind str ust ?x _] |- _ => destruct x as [raw|e] end; cbn [bind] in E; [|easy].
      match goal with _ : context [@bind str ust ?x _] |- _ => destruct x as [data|e] end; cbn [bind] in E; [|easy].
      destruct (match ms_dmem st with Some n => _ | None => false end); [easy|].
      destruct (post_append _ _ _ _ _); cbn [bind] in E; [|easy]. now injection E as <-.
    + unfold u_file in E. destruct (if Z.ltb _ _ then _ else _); cbn [bind] in E; [|easy]. now injection E as <-.
  - destruct (u_step reg mk_temp st m x u) as [u1|e]; cbn [bind] in *; [|easy]. now apply IH in H.
Qed.

Lemma placed_parts reg name2cp D r m k : forall vs ns tot,
  Forall2 (starts D r) ns vs -> Forall (fun v => item_rel reg name2cp (v_text v) (v_item v)) vs ->
  (forall v, In v vs -> v_item v <> KSkip -> v_after v <> None) -> StronglySorted lt ns ->
  exists ps : list (nat * finfo * str), StronglySorted lt (map (fun p => fst (fst p)) ps) /\
    (forall n, In n (map (fun p => fst (fst p)) ps) -> In n ns) /\
    Forall2 (fun p f => complete_part reg name2cp D r (fst (fst p)) (snd (fst p)) (snd p) /\ fi_field (snd (fst p)) = k /\
      exists total, tot + length (snd p) <= total /\ f = upload m total (snd (fst p)) (snd p)) ps (stored k (placed m tot (map v_item vs))).
Proof.
  induction vs as [|v vs IH]; intros ns tot HN HI HO HS; inversion HN as [|n v' ns' vs' Hn HN' E1 E2]; subst; clear HN.
  { exists []. repeat split; try constructor. easy. }
  inversion_clear HI as [|? ? HI1 HI2]. inversion_clear HS as [|? ? HS1 HS2].
  assert (HO' : forall v, In v vs -> v_item v <> KSkip -> v_after v <> None) by (intros; apply HO; [now right|easy]).
  assert (HT : forall tot', tot <= tot' ->
    exists ps : list (nat * finfo * str), StronglySorted lt (map (fun p => fst (fst p)) ps) /\
    (forall n, In n (map (fun p => fst (fst p)) ps) -> In n ns') /\
    Forall2 (fun p f => complete_part reg name2cp D r (fst (fst p)) (snd (fst p)) (snd p) /\ fi_field (snd (fst p)) = k /\
      exists total, tot + length (snd p) <= total /\ f = upload m total (snd (fst p)) (snd p)) ps (stored k (placed m tot' (map v_item vs)))).
  { intros tot' Ht. destruct (IH ns' tot' HN' HI2 HO' HS1) as (ps & P1 & P2 & P3). exists ps. split; [easy|]. split; [easy|].
    eapply forall2_impl; [|exact P3]. cbn. intros p f (C1 & C2 & total & C3 & C4). repeat (split; [easy|]). exists total. split; [lia|easy]. }
  assert (HSK : forall tot', tot <= tot' -> exists ps : list (nat * finfo * str), StronglySorted lt (map (fun p => fst (fst p)) ps) /\
    (forall x, In x (map (fun p => fst (fst p)) ps) -> In x (n :: ns')) /\
    Forall2 (fun p f => complete_part reg name2cp D r (fst (fst p)) (snd (fst p)) (snd p) /\ fi_field (snd (fst p)) = k /\
      exists total, tot + length (snd p) <= total /\ f = upload m total (snd (fst p)) (snd p)) ps (stored k (placed m tot' (map v_item vs)))).
  { intros tot' Ht. destruct (HT tot' Ht) as (ps & P1 & P2 & P3). exists ps. split; [easy|]. split; [|easy]. intros x Hx. right. now apply P2. }
  cbn [map placed]. destruct (v_item v) as [e|  |name tenc h payload|i w] eqn:Ev; try (apply HSK; lia).
  change ((fi_field i, upload m (tot + length w) i w) :: placed m (tot + length w) (map v_item vs))
    with ([(fi_field i, upload m (tot + length w) i w)] ++ placed m (tot + length w) (map v_item vs)). rewrite stored_app.
  assert (Hc : stored k [(fi_field i, upload m (tot + length w) i w)] = [] \/
               fi_field i = k /\ stored k [(fi_field i, upload m (tot + length w) i w)] = [upload m (tot + length w) i w]).
  { unfold stored. cbn [filter fst snd]. destruct (seqb k (fi_field i)) eqn:E; [|now left]. cbn [andb].
    destruct (nonempty k && _); [right|now left]. apply seqb_eq in E. now split. }
  destruct Hc as [->|[Hk ->]]; [apply HSK; lia|].
  destruct (HT (tot + length w) ltac:(lia)) as (ps & P1 & P2 & P3). exists ((n, i, w) :: ps). cbn [map fst snd]. split; [|split].
  - constructor; [easy|]. apply Forall_forall. intros x Hx. apply P2 in Hx. rewrite Forall_forall in HS2. now apply HS2.
  - intros x [<-|Hx]; [now left|]. right. now apply P2.
  - cbn [app]. constructor; [|exact P3]. cbn [fst snd]. split; [|split; [easy|exists (tot + length w); split; [lia|easy]]].
    pose proof (HO v (or_introl eq_refl) ltac:(now rewrite Ev)) as Haf. destruct Hn as [Hlt Hb].
    unfold item_rel in HI1. destruct (classify reg (v_text v)) as [[[ty h] payload]|e] eqn:EC; [|congruence].
    destruct (part_action name2cp ty h) as [[|name tenc|i' b64]|e] eqn:EP; try congruence.
    destruct HI1 as (w' & Hw & HE). assert (i' = i /\ w' = w) as [-> ->] by (split; congruence).
    destruct (classify_payload reg _ _ _ _ _ _ name2cp EC EP) as [hd Et].
    remember (skipn n r) as rn eqn:Er. remember (v_text v) as t eqn:Evt. remember (v_after v) as af eqn:Eaf.
    destruct Hb as [u v1 Hf|Hnn]; [|easy]. destruct Hf as [Hr Hfirst].
    exists (firstn n r), u, v1, hd, payload, b64. rewrite <- Hr, Er. split; [symmetry; apply firstn_skipn|].
    split; [rewrite firstn_length; lia|]. split; [rewrite <- Er; split; [exact Hr|exact Hfirst]|]. split; [easy|]. split; [easy|]. now exists ty, h.
Qed.

(** what [FILES] contains, for every body *)
Theorem all_files_complete reg name2cp mk_temp st m D : D <> [] ->
  ms_fmem st = Some m -> (0 <= m)%Z -> (forall x, mk_temp x <> Err StopFutureHandlers) ->
  forall r len p', parses reg name2cp mk_temp st D r (start_state st len [HConv new_conv]) (Ok p') ->
  forall k, exists ps : list (nat * finfo * str), StronglySorted lt (map (fun p => fst (fst p)) ps) /\
    Forall2 (fun p f => complete_part reg name2cp D r (fst (fst p)) (snd (fst p)) (snd p) /\ fi_field (snd (fst p)) = k /\
      exists total, length (snd p) <= total /\ f = upload m total (snd (fst p)) (snd p)) ps (getl k (p_files p')).
Proof.
  intros HD Hst Hm Hmk r len p' HP k.
  destruct (run_rel reg name2cp mk_temp st m Hst Hmk D r _ _ HP u_start p' (start_abs st m Hm Hst len) eq_refl)
    as (vs & u' & HV & HI & HU & HA).
  destruct HA as (_ & -> & _). destruct vs as [|v0 vs0] using rev_ind.
  { cbn in HU. injection HU as <-. exists []. split; constructor. }
  clear IHvs0. rewrite map_app in HU. destruct (run_last _ _ _ _ _ _ _ _ HU) as (u1 & HU1 & ->).
  rewrite (run_placed _ _ _ _ _ _ _ HU1 k). change (getl k (u_files (u_finish u_start))) with (@nil ufile). cbn [app u_start u_total].
  destruct (visits_at D r _ HD HV) as (ns & HN & HS). apply Forall2_app_inv_r in HN as (n1 & n2 & HN1 & HN2 & ->).
  apply Forall_app in HI as [HI _].
  assert (HS1 : StronglySorted lt n1).
  { clear -HS. induction n1 as [|x n1 IH]; [constructor|]. cbn in HS. inversion_clear HS as [|? ? A B].
    apply Forall_app in B as [B _]. constructor; auto. }
  destruct (placed_parts reg name2cp D r m k vs0 n1 0 HN1 HI) as (ps & P1 & _ & P3); [|exact HS1|exists ps; split; [exact P1|exact P3]].
  intros v Hv. apply (visits_last_open D r _ HV). now rewrite removelast_last.
Qed.
