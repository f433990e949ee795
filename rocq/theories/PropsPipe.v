(** * C146: upload handlers form a pipeline *)
From Verif Require Import Py PyDict PyFacts StreamModel CodecModel QueryModel Base64Model HeaderModel
  BoundaryModel UploadModel MultipartModel MultipartSpec FormSpec CustomModel CustomProto CustomUpto CustomPar PropsPart PropsMultipart PropsCustom PropsWatch.

(** the handlers of [O], with a record of all chunks they are given and of all chunks they hand on *)
Definition piped {S F X} (O : ops S F X) : ops (S * (list str * list str)) F X :=
  mkOps _ F X
    (fun len h => let (r, s) := o_raw O len (fst h) in (r, (s, snd h)))
    (fun i len h => let (r, s) := o_new O i len (fst h) in (r, (s, snd h)))
    (fun d n h => let (r, s) := o_data O d n (fst h) in
       (r, (s, (fst (snd h) ++ [d], match r with Good (Some d') => snd (snd h) ++ [d'] | _ => snd (snd h) end))))
    (fun n h => let (r, s) := o_done O n (fst h) in (r, (s, snd h)))
    (fun h => let (r, s) := o_close O (fst h) in (r, (s, snd h)))
    (fun h => let (r, s) := o_end O (fst h) in (r, (s, snd h))).
(** everybody is given what the one before handed on *)
Fixpoint chain (l : list (list str * list str)) : Prop :=
  match l with
  | a :: ((b :: _) as t) => snd a = fst b /\ chain t
  | _ => True
  end.

Section Pipe.
  Context {S F X : Type} (O : ops S F X) (truthy : F -> bool).
  Notation P := (piped O).
  Notation H := (S * (list str * list str))%type.

  Lemma raw_logs len : forall hs, map snd (snd (c_raw P len hs)) = map snd hs.
  Proof.
    induction hs as [|h hs IH]; [reflexivity|]. cbn [c_raw piped o_raw]. destruct (o_raw O len (fst h)) as [[[x|]|x] s]; [reflexivity| |reflexivity].
    destruct (c_raw P len hs) as [r hs1]. cbn in *. now rewrite IH.
  Qed.
  Lemma new_logs i len : forall hs, map snd (snd (c_new P i len hs)) = map snd hs.
  Proof.
    induction hs as [|h hs IH]; [reflexivity|]. cbn [c_new piped o_new]. destruct (o_new O i len (fst h)) as [[u|x] s].
    - destruct (c_new P i len hs) as [r hs1]. cbn in *. now rewrite IH.
    - now destruct x.
  Qed.
  Lemma close_logs : forall hs, map snd (snd (c_close P hs)) = map snd hs.
  Proof.
    induction hs as [|h hs IH]; [reflexivity|]. cbn [c_close piped o_close]. destruct (o_close O (fst h)) as [[u|x] s]; [|reflexivity].
    destruct (c_close P hs) as [r hs1]. cbn in *. now rewrite IH.
  Qed.
  Lemma end_logs : forall hs, map snd (snd (c_end P hs)) = map snd hs.
  Proof.
    induction hs as [|h hs IH]; [reflexivity|]. cbn [c_end piped o_end]. destruct (o_end O (fst h)) as [[[|]|x] s]; [reflexivity| |reflexivity].
    destruct (c_end P hs) as [r hs1]. cbn in *. now rewrite IH.
  Qed.
  Lemma complete_logs name : forall hs cs files, map snd (snd (c_complete P truthy name hs cs files)) = map snd hs.
  Proof.
    induction hs as [|h hs IH]; intros cs files; [reflexivity|]. destruct cs as [|c cs]; [reflexivity|]. cbn [c_complete piped o_done].
    destruct (o_done O c (fst h)) as [[o|x] s]; [|reflexivity]. destruct (match o with Some f => truthy f | None => false end); [reflexivity|].
    specialize (IH cs files). destruct (c_complete P truthy name hs cs files) as [r hs1]. cbn in *. now rewrite IH.
  Qed.
  Lemma feed_chain : forall hs cs d, length cs = length hs -> chain (map snd hs) ->
    let '(_, (hs1, cs1)) := c_feed P d hs cs in
    length hs1 = length hs /\ length cs1 = length hs1 /\ chain (map snd hs1) /\
    match map snd hs1, map snd hs with a :: _, b :: _ => fst a = fst b ++ [d] | [], [] => True | _, _ => False end.
  Proof.
    induction hs as [|h hs IH]; intros cs d HC HL; [now destruct cs|]. destruct cs as [|c cs]; [discriminate HC|]. injection HC as HC.
    cbn [c_feed piped o_data]. destruct (o_data O d c (fst h)) as [[[d'|]|x] s].
    - assert (HL' : chain (map snd hs)) by (destruct hs; [exact I|apply HL]). specialize (IH cs d' HC HL').
      destruct (c_feed P d' hs cs) as [r [hs1 cs1]]. destruct IH as (I1 & I2 & I3 & I4). cbn [fst snd map length]. repeat split; try lia.
      cbn [chain]. destruct hs1 as [|h1 hs1], hs as [|h0 hs]; try easy. cbn in *. destruct HL as [HL _]. split; [|exact I3]. now rewrite HL, I4.
    - cbn [fst snd map length]. repeat split; try lia. destruct hs as [|h0 hs]; [exact I|]. exact HL.
    - cbn [fst snd map length]. repeat split; try lia. destruct hs as [|h0 hs]; [exact I|]. exact HL.
  Qed.
  Lemma finish_logs p : map snd (c_hs (snd (c_finish P truthy p))) = map snd (c_hs p).
  Proof.
    unfold c_finish. destruct (c_old p) as [|x t] eqn:E; [reflexivity|]. pose proof (complete_logs (x :: t) (c_hs p) (c_counters p) (c_files p)) as HC.
    destruct (c_complete P truthy (x :: t) (c_hs p) (c_counters p) (c_files p)) as [[f|e] hs]; exact HC.
  Qed.

  Section Run.
    Context {R : Type} (rd : nat -> R -> res str * R) (exh : R -> res unit * R).
    Context (reg : registry) (name2cp : str -> option N) (st : mset) (D : str) (fuel : nat).
    Lemma file_loop_chain b64 : forall n hs cs s, length cs = length hs -> chain (map snd hs) ->
      chain (map snd (fst (snd (fst (c_file_loop rd fuel P n b64 hs cs s))))).
    Proof.
      induction n as [|n IH]; intros hs cs s HC HL; [exact HL|]. cbn [c_file_loop].
      destruct (ls_next _ s) as [[c| |e] s1]; [|exact HL|exact HL].
      destruct (if b64 then _ else _) as [[d|e] s2]; [|exact HL].
      pose proof (feed_chain hs cs d HC HL) as HF. destruct (c_feed P d hs cs) as [[u|x] [hs1 cs1]]; destruct HF as (F1 & F2 & F3 & _); [|exact F3].
      now apply IH.
    Qed.
    Lemma deliver_chain i len b64 p s : chain (map snd (c_hs p)) -> chain (map snd (c_hs (snd (fst (c_deliver rd fuel P i len b64 p s))))).
    Proof.
      intros HL. unfold c_deliver. cbv zeta.
      assert (HSK : forall hs cs s1, chain (map snd hs) -> chain (map snd (c_hs (snd (fst
        (match c_close P hs with
         | (Bad x, hs1) => ((Bad x, mkC (c_core p) (c_files p) [] cs hs1), s1)
         | (Good _, hs1) => match ls_drain (bi_next (ci_next rd) fuel) fuel s1 with
                            | (Err e, s2) => ((Bad (CExn e), mkC (c_core p) (c_files p) [] cs hs1), s2)
                            | (Ok _, s2) => ((Good tt, mkC (c_core p) (c_files p) [] cs hs1), s2)
                            end
         end : (cr unit * cst H F) * lstream (biter (chunkiter R)))))))).
      { intros hs cs s1 Hh. pose proof (close_logs hs) as E. destruct (c_close P hs) as [[u|x] hs1]; cbn in E; [|cbn; now rewrite E].
        destruct (ls_drain _ fuel s1) as [[u'|e] s2]; cbn; now rewrite E. }
      pose proof (new_logs i len (c_hs p)) as E. destruct (c_new P i len (c_hs p)) as [[u|x] hs]; cbn in E.
      - assert (HE : length hs = length (c_hs p)) by (rewrite <- (map_length snd hs), E; apply map_length).
        pose proof (file_loop_chain b64 fuel hs (map (fun _ => 0) (c_hs p)) s) as HF. rewrite map_length in HF.
        specialize (HF (eq_sym HE)). rewrite E in HF. specialize (HF HL).
        destruct (c_file_loop rd fuel P fuel b64 hs (map (fun _ => 0) (c_hs p)) s) as [[[u'|x] [hs1 cs1]] s1]; cbn in HF; [exact HF|].
        destruct x; try exact HF. now apply HSK.
      - destruct x; try (cbn; now rewrite E). apply HSK. now rewrite E.
    Qed.
    Lemma part_chain ty m p s : chain (map snd (c_hs p)) -> chain (map snd (c_hs (snd (fst (c_part rd reg name2cp st fuel P ty m p s))))).
    Proof.
      intros HL. unfold c_part. destruct (dget CDISP m) as [[v disp]|]; [|exact HL]. destruct (dget !"name" disp) as [raw|]; [|exact HL].
      cbv zeta. destruct (to_native (pstrip raw)) as [name|e]; [|exact HL]. destruct ty; [exact HL| |].
      - unfold c_read_file. destruct (match dget !"filename" disp with Some f => _ | None => _ end) as [[|y t]|e]; try exact HL.
        destruct (match dget !"content-type" m with Some v0 => v0 | None => ([], []) end) as [ct extra]. now apply deliver_chain.
      - destruct (read_field _ _ _ _ _ _ _ _ _) as [[core|e] s1]; exact HL.
    Qed.
    Lemma loop_chain : forall n p s, chain (map snd (c_hs p)) -> chain (map snd (c_hs (snd (fst (c_loop rd reg name2cp st D fuel P truthy n p s))))).
    Proof.
      induction n as [|n IH]; intros p s HL; [exact HL|]. cbn [c_loop]. destruct (bi_init _ _ s D) as [[b|e] s1]; [|destruct e; exact HL].
      destruct (parse_boundary_stream _ _ _ _) as [[[ty m]|e] s2]; [|exact HL].
      pose proof (finish_logs p) as E. destruct (c_finish P truthy p) as [[u|x] p1]; cbn in E; [|cbn; now rewrite E].
      pose proof (part_chain ty m p1 s2 ltac:(now rewrite E)) as HP. destruct (c_part rd reg name2cp st fuel P ty m p1 s2) as [[[u'|x] p2] s3]; cbn in HP; [|exact HP].
      now apply IH.
    Qed.
    Theorem parse_chain len csize hs (r : R) : chain (map snd hs) ->
      chain (map snd (snd (fst (c_parse rd exh reg name2cp st D fuel P truthy len csize hs r)))).
    Proof.
      intros HL. unfold c_parse. cbv zeta. destruct (Z.eqb len 0); [destruct (querydict _ _ _ _); exact HL|].
      pose proof (raw_logs len hs) as E. destruct (c_raw P len hs) as [[[x|]|x] hs1]; cbn in E; try (cbn; now rewrite E).
      destruct (querydict _ _ _ _); [|cbn; now rewrite E].
      pose proof (loop_chain fuel (mkC core0 [] [] (map (fun _ => 0) hs1) hs1) (ls_init (mkCI r csize) None)) as HP. cbn [c_hs] in HP. rewrite E in HP. specialize (HP HL).
      assert (HR : forall p hs r, chain (map snd hs) -> chain (map snd (snd (fst (c_return P p hs r : cr outcome * list H * R))))).
      { intros p hs0 r0 H0. unfold c_return. pose proof (end_logs hs0) as E0. destruct (c_end P hs0) as [[u|x] hs2]; cbn in E0 |- *; now rewrite E0. }
      destruct (c_loop _ _ _ _ _ _ _ _ _ _ _) as [[[u|x] p1] s]; cbn in HP.
      - destruct (exh _) as [[u'|e] r1]; [now apply HR|exact HP].
      - destruct x; try exact HP. pose proof (close_logs (c_hs p1)) as E1. destruct (c_close P (c_hs p1)) as [[u|x] hs2]; cbn in E1; [|cbn; now rewrite E1].
        destruct reset; [apply HR; now rewrite E1|]. destruct (exh _) as [[u'|e] r1]; [apply HR; now rewrite E1|cbn; now rewrite E1].
    Qed.
  End Run.
End Pipe.

(** writing the chunks down makes no difference *)
Section Log.
  Context {S F X : Type} (O : ops S F X) (truthy : F -> bool).
  Notation P := (piped O).
  Notation H := (S * (list str * list str))%type.
  Definition bare (x : list H * list nat) (y : list S * list nat) : Prop := map fst (fst x) = fst y /\ snd x = snd y.
  Lemma bare_zeros (hs : list H) : zeros hs = zeros (map fst hs).
  Proof. unfold zeros. now rewrite map_map. Qed.
  Lemma bare_raw len : forall hs, fst (c_raw P len hs) = fst (c_raw O len (map fst hs)) /\ map fst (snd (c_raw P len hs)) = snd (c_raw O len (map fst hs)).
  Proof.
    induction hs as [|h hs [I1 I2]]; [easy|]. cbn [map c_raw piped o_raw]. destruct (o_raw O len (fst h)) as [[[x|]|x] s]; [easy| |easy].
    destruct (c_raw P len hs), (c_raw O len (map fst hs)). cbn in *. now subst.
  Qed.
  Lemma bare_new i len : forall hs, fst (c_new P i len hs) = fst (c_new O i len (map fst hs)) /\ map fst (snd (c_new P i len hs)) = snd (c_new O i len (map fst hs)).
  Proof.
    induction hs as [|h hs [I1 I2]]; [easy|]. cbn [map c_new piped o_new]. destruct (o_new O i len (fst h)) as [[u|x] s].
    - destruct (c_new P i len hs), (c_new O i len (map fst hs)). cbn in *. now subst.
    - now destruct x.
  Qed.
  Lemma bare_feed : forall hs cs d, fst (c_feed P d hs cs) = fst (c_feed O d (map fst hs) cs) /\ bare (snd (c_feed P d hs cs)) (snd (c_feed O d (map fst hs) cs)).
  Proof.
    induction hs as [|h hs IH]; intros cs d; [now destruct cs|]. destruct cs as [|c cs]; [easy|]. cbn [map c_feed piped o_data].
    destruct (o_data O d c (fst h)) as [[[d'|]|x] s]; [|easy|easy]. destruct (IH cs d') as [I1 [I2 I3]]. unfold bare.
    destruct (c_feed P d' hs cs) as [r [h1 c1]], (c_feed O d' (map fst hs) cs) as [r' [h1' c1']]. cbn in *. now subst.
  Qed.
  Lemma bare_done name files : forall hs cs, fst (c_complete P truthy name hs cs files) = fst (c_complete O truthy name (map fst hs) cs files) /\
    map fst (snd (c_complete P truthy name hs cs files)) = snd (c_complete O truthy name (map fst hs) cs files).
  Proof.
    induction hs as [|h hs IH]; intros cs; [now destruct cs|]. destruct cs as [|c cs]; [easy|]. cbn [map c_complete piped o_done].
    destruct (o_done O c (fst h)) as [[o|x] s]; [|easy]. destruct (match o with Some f => truthy f | None => false end); [easy|].
    destruct (IH cs) as [I1 I2]. destruct (c_complete P truthy name hs cs files), (c_complete O truthy name (map fst hs) cs files). cbn in *. now subst.
  Qed.
  Lemma bare_close : forall hs, fst (c_close P hs) = fst (c_close O (map fst hs)) /\ map fst (snd (c_close P hs)) = snd (c_close O (map fst hs)).
  Proof.
    induction hs as [|h hs [I1 I2]]; [easy|]. cbn [map c_close piped o_close]. destruct (o_close O (fst h)) as [[u|x] s]; [|easy].
    destruct (c_close P hs), (c_close O (map fst hs)). cbn in *. now subst.
  Qed.
  Lemma bare_end : forall hs, fst (c_end P hs) = fst (c_end O (map fst hs)).
  Proof.
    induction hs as [|h hs I1]; [easy|]. cbn [map c_end piped o_end]. destruct (o_end O (fst h)) as [[[]|x] s]; [easy| |easy].
    destruct (c_end P hs), (c_end O (map fst hs)). cbn in *. now subst.
  Qed.
  Lemma bare_alike : alike P O truthy truthy eq bare bare.
  Proof.
    constructor.
    - easy.
    - intros i len [hs cs] [hs' cs'] [E1 E2]. cbn in E1, E2. subst. destruct (bare_new i len hs) as [E H2]. split; [exact E|].
      cbn [fst snd]. rewrite bare_zeros. now destruct (fst (c_new P i len hs)).
    - intros d [hs cs] [hs' cs'] [E1 E2]. cbn in E1, E2. subst. destruct (bare_feed hs cs' d) as [E H2]. split; [exact E|]. cbn [fst snd].
      now destruct (fst (c_feed P d hs cs')).
    - intros name [hs cs] [hs' cs'] f1 f2 [E1 E2] Hf. cbn in E1, E2. subst. apply same_eq in Hf. subst f2. cbv zeta. cbn [fst snd].
      destruct (bare_done name f1 hs cs') as [E H2]. split; [|easy]. rewrite E.
      destruct (fst (c_complete O truthy name (map fst hs) cs' f1)); [apply eq_same|reflexivity].
    - intros [hs cs] [hs' cs'] [E1 E2]. cbn in E1, E2. subst. destruct (bare_close hs) as [E H2]. split; [exact E|]. easy.
    - intros [hs cs] [hs' cs'] [E1 E2]. cbn in E1, E2. subst. exact (bare_end hs).
  Qed.
End Log.

Definition unlogged {S} (hs : list S) : list (S * (list str * list str)) := map (fun s => (s, ([], []))) hs.
Theorem C146_transparent :
  forall S F X (O : ops S F X) truthy R rd exh reg name2cp st D fuel len csize hs (r : R),
  let a := c_parse rd exh reg name2cp st D fuel (piped O) truthy len csize (unlogged hs) r in
  let b := c_parse rd exh reg name2cp st D fuel O truthy len csize hs r in
  fst (fst a) = fst (fst b) /\ snd a = snd b.
Proof.
  intros S F X O truthy R rd exh reg name2cp st D fuel len csize hs r. cbv zeta.
  destruct (bare_raw O len (unlogged hs)) as [HR HI].
  assert (EU : map fst (unlogged hs) = hs) by (unfold unlogged; rewrite map_map; apply map_id). rewrite EU in HR, HI.
  destruct (par_parse (piped O) O truthy truthy eq eq bare bare (bare_alike O truthy) rd exh reg name2cp st st D fuel
              eq_refl eq_refl eq_refl len len csize (unlogged hs) hs r) as [H1 H2]; [easy| | |].
  - rewrite HR. destruct (fst (c_raw O len hs)) as [[x|]|x]; easy.
  - split; [exact HI|]. cbn [snd]. rewrite bare_zeros. now rewrite HI.
  - split; [|exact H2].
    destruct (fst (fst (c_parse rd exh reg name2cp st D fuel (piped O) truthy len csize (unlogged hs) r))) as [[x|p f]|x],
      (fst (fst (c_parse rd exh reg name2cp st D fuel O truthy len csize hs r))) as [[y|p' f']|y]; cbn in H1; try easy; try congruence.
    destruct H1 as [-> H1]. apply same_eq in H1. now subst.
Qed.
Print Assumptions C146_transparent.

(** ** C146: whatever the handlers are, whatever arrives and however it ends, each handler has been given
    exactly the chunks that the handler before it handed on, in that order *)
Lemma chain_nth : forall l, chain l -> forall i a b, nth_error l i = Some a -> nth_error l (S i) = Some b -> fst b = snd a.
Proof.
  induction l as [|x l IH]; intros HL i a b Ha Hb; [now destruct i|]. destruct l as [|y l]; [now destruct i as [|[|]]|].
  destruct HL as [HL1 HL2]. destruct i as [|i]; [|exact (IH HL2 i a b Ha Hb)]. injection Ha as <-. injection Hb as <-. now symmetry.
Qed.
Lemma unlogged_chain {S} : forall hs : list S, chain (map snd (unlogged hs)).
Proof. induction hs as [|h [|k hs] IH]; [exact I|exact I|]. now split. Qed.
Theorem C146_pipeline :
  forall S F X (O : ops S F X) truthy R rd exh reg name2cp st D fuel len csize hs (r : R),
  let logs := map snd (snd (fst (c_parse rd exh reg name2cp st D fuel (piped O) truthy len csize (unlogged hs) r))) in
  length logs = length hs /\
  forall i given handed given' handed', nth_error logs i = Some (given, handed) -> nth_error logs (Datatypes.S i) = Some (given', handed') ->
  given' = handed.
Proof.
  intros S F X O truthy R rd exh reg name2cp st D fuel len csize hs r. cbv zeta. split.
  - pose proof (keep_parse (piped O) truthy (fun _ => tt)) as HK. specialize (HK ltac:(constructor; reflexivity) R rd exh reg name2cp st D fuel len csize (unlogged hs) r).
    apply (f_equal (@length unit)) in HK. rewrite !map_length in HK. rewrite map_length, HK. unfold unlogged. apply map_length.
  - intros i g h g' h' Ha Hb. exact (chain_nth _ (parse_chain O truthy rd exh reg name2cp st D fuel len csize (unlogged hs) r (unlogged_chain hs)) i _ _ Ha Hb).
Qed.
Print Assumptions C146_pipeline.

(** *** a handler that changes every chunk and hands it on: the next one is given the changed chunks *)
Definition stable {S F X} (O : ops S F X) {K} (kind : S -> K) : Prop :=
  (forall len s, kind (snd (o_raw O len s)) = kind s) /\ (forall i len s, kind (snd (o_new O i len s)) = kind s) /\
  (forall d n s, kind (snd (o_data O d n s)) = kind s) /\ (forall n s, kind (snd (o_done O n s)) = kind s) /\
  (forall s, kind (snd (o_close O s)) = kind s) /\ (forall s, kind (snd (o_end O s)) = kind s).
Definition log_is (f : str -> str) (l : list str * list str) : bool :=
  if list_eq_dec (list_eq_dec N.eq_dec) (snd l) (map f (fst l)) then true else false.
Lemma log_is_snoc f g h d : log_is f (g ++ [d], h ++ [f d]) = log_is f (g, h).
Proof.
  unfold log_is. cbn [fst snd]. rewrite map_app. cbn [map]. destruct (list_eq_dec (list_eq_dec N.eq_dec) (h ++ [f d]) (map f g ++ [f d])) as [E|E], (list_eq_dec (list_eq_dec N.eq_dec) h (map f g)) as [E2|E2]; try reflexivity.
  - apply app_inj_tail in E. tauto.
  - exfalso. apply E. now rewrite E2.
Qed.
Theorem C146_filter :
  forall S F X (O : ops S F X) (kind : S -> bool) (f : str -> str) truthy R rd exh reg name2cp st D fuel len csize hs (r : R),
  stable O kind -> (forall d n s, kind s = true -> fst (o_data O d n s) = Good (Some (f d))) ->
  let logs := map snd (snd (fst (c_parse rd exh reg name2cp st D fuel (piped O) truthy len csize (unlogged hs) r))) in
  forall i s given handed given' handed', nth_error hs i = Some s -> kind s = true ->
  nth_error logs i = Some (given, handed) -> nth_error logs (Datatypes.S i) = Some (given', handed') ->
  given' = map f given.
Proof.
  intros S F X O kind f truthy R rd exh reg name2cp st D fuel len csize hs r (K1 & K2 & K3 & K4 & K5 & K6) Hf. cbv zeta.
  intros i s g h g' h' Hs Hk Ha Hb.
  destruct (C146_pipeline S F X O truthy R rd exh reg name2cp st D fuel len csize hs r) as [_ HP]. cbv zeta in HP.
  rewrite (HP i g h g' h' Ha Hb). clear HP g' h' Hb.
  set (m := fun x : S * (list str * list str) => (kind (fst x), if kind (fst x) then log_is f (snd x) else true)).
  assert (HK : keeping (piped O) m).
  { constructor; cbn [piped o_raw o_new o_data o_done o_close o_end]; unfold m.
    - intros len0 x. specialize (K1 len0 (fst x)). destruct (o_raw O len0 (fst x)). cbn [fst snd] in *. now rewrite K1.
    - intros i0 len0 x. specialize (K2 i0 len0 (fst x)). destruct (o_new O i0 len0 (fst x)). cbn [fst snd] in *. now rewrite K2.
    - intros d n x. specialize (K3 d n (fst x)). specialize (Hf d n (fst x)). destruct (o_data O d n (fst x)) as [q s1]. cbn [fst snd] in *. rewrite K3.
      destruct (kind (fst x)); [|reflexivity]. rewrite (Hf eq_refl), log_is_snoc. now destruct (snd x).
    - intros n x. specialize (K4 n (fst x)). destruct (o_done O n (fst x)). cbn [fst snd] in *. now rewrite K4.
    - intros x. specialize (K5 (fst x)). destruct (o_close O (fst x)). cbn [fst snd] in *. now rewrite K5.
    - intros x. specialize (K6 (fst x)). destruct (o_end O (fst x)). cbn [fst snd] in *. now rewrite K6. }
  pose proof (keep_parse (piped O) truthy m HK rd exh reg name2cp st D fuel len csize (unlogged hs) r) as HM.
  apply (f_equal (fun l => nth_error l i)) in HM. rewrite nth_error_map in HM, Ha.
  destruct (nth_error (snd (fst (c_parse rd exh reg name2cp st D fuel (piped O) truthy len csize (unlogged hs) r))) i) as [[s1 l1]|]; [|discriminate Ha].
  cbn in Ha, HM. injection Ha as ->. unfold unlogged in HM. rewrite !nth_error_map, Hs in HM. cbn in HM. unfold m in HM. cbn [fst snd] in HM. rewrite Hk in HM.
  injection HM as E1 E2. rewrite E1 in E2. unfold log_is in E2. cbn [fst snd] in E2. destruct (list_eq_dec (list_eq_dec N.eq_dec) h (map f g)) as [E|E]; [exact E|].
  cbn in E2. discriminate E2.
Qed.
Print Assumptions C146_filter.

(** a handler that turns every byte into the next one, in front of one that takes everything down and of the idle one *)
Definition shift (d : str) : str := map (fun c => (c + 1)%N) d.
Definition shift_ops : ops bool ufile Empty_set :=
  mkOps bool ufile Empty_set (fun _ h => (Good None, h)) (fun _ _ h => (Good tt, h))
    (fun d _ h => (if h then Good (Some (shift d)) else Good None, h)) (fun _ h => (Good None, h)) (fun h => (Good tt, h)) (fun h => (Good false, h)).
Example C146_case : stable shift_ops (fun b => b) /\ (forall d n s, s = true -> fst (o_data shift_ops d n s) = Good (Some (shift d))) /\
  map snd (snd (fst (ex_custom (piped shift_ops) file_truthy (render_form !"--X" ex_parts) (unlogged [true; false; true])))) =
    [([[0; 255; 13; 10]%N; !"abc"], [[1; 256; 14; 11]%N; !"bcd"]); ([[1; 256; 14; 11]%N; !"bcd"], []); ([], [])].
Proof. split; [now repeat split|]. split; [now intros d n s ->|]. vm_compute. reflexivity. Qed.
