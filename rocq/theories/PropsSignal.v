(** * Theorems C126 and C127: what handlers raise, and handlers that take over the parsing *)
From Verif Require Import Py Spec PyFacts PyDict StreamModel StreamSpec StreamFacts CodecModel QueryModel Base64Model HeaderModel
  BoundaryModel UploadModel MultipartModel MultipartDet FormSpec ItemFacts CustomModel CustomGuard CustomLib CustomPar
  PropsPart PropsMultipart.

(** ** C126 *)
(** the methods of a handler; [MClose] is the close() of its file *)
Inductive meth := MRaw | MNew | MData | MDone | MClose | MEnd.
(** handlers that write down what their methods raise *)
Definition note {S A} (m : meth) (h : S * list (meth * cexn)) (r : cr A * S) : cr A * (S * list (meth * cexn)) :=
  match r with
  | (Good a, s) => (Good a, (s, snd h))
  | (Bad x, s) => (Bad x, (s, snd h ++ [(m, x)]))
  end.
Definition noted {S F X} (O : ops S F X) : ops (S * list (meth * cexn)) F X :=
  mkOps _ F X
    (fun len h => note MRaw h (o_raw O len (fst h)))
    (fun i len h => note MNew h (o_new O i len (fst h)))
    (fun d n h => note MData h (o_data O d n (fst h)))
    (fun n h => note MDone h (o_done O n (fst h)))
    (fun h => note MClose h (o_close O (fst h)))
    (fun h => note MEnd h (o_end O (fst h))).

(** what the parser acts upon: SkipFile in new_file and receive_data_chunk, StopFutureHandlers in new_file,
    StopUpload in new_file, receive_data_chunk and file_complete *)
Inductive signal : meth -> cexn -> Prop :=
| skip_new : signal MNew CSkip
| skip_data : signal MData CSkip
| future_new : signal MNew CFuture
| stop_new b : signal MNew (CStop b)
| stop_data b : signal MData (CStop b)
| stop_done b : signal MDone (CStop b).
(** StopUpload from closing a file is acted upon when the file was skipped *)
Inductive maybe : meth -> cexn -> Prop := stop_close b : maybe MClose (CStop b).

(** the last thing a handler did was to raise [x] in [m]; before, only signals were raised, by all handlers *)
Definition calm {S} (h : S * list (meth * cexn)) : Prop := Forall (fun e => signal (fst e) (snd e) \/ maybe (fst e) (snd e)) (snd h).
Definition ended_by {S} (m : meth) (x : cexn) (hs : list (S * list (meth * cexn))) : Prop :=
  exists a h b l, hs = a ++ h :: b /\ Forall calm a /\ Forall calm b /\ snd h = l ++ [(m, x)] /\
    Forall (fun e => signal (fst e) (snd e) \/ maybe (fst e) (snd e)) l.

Section Signals.
  Context {S F X : Type} (O : ops S F X) (truthy : F -> bool).
  Notation NO := (noted O).
  Notation H := (S * list (meth * cexn))%type.
  Definition told {A} (P : meth -> cexn -> Prop) (r : cr A) (hs : list H) : Prop :=
    match r with
    | Good _ => Forall calm hs
    | Bad x => (exists e, x = CExn e) /\ Forall calm hs \/ exists m, P m x /\ ended_by m x hs
    end.
  Lemma told_weak {A} (P Q : meth -> cexn -> Prop) (r : cr A) hs : (forall m x, P m x -> Q m x) -> told P r hs -> told Q r hs.
  Proof. intros HPQ. destruct r; [easy|]. intros [HC|(m & HP & HE)]; [now left|right; exists m; auto]. Qed.
  Lemma ended_calm m x (hs : list H) : ended_by m x hs -> signal m x \/ maybe m x -> Forall calm hs.
  Proof.
    intros (a & h & b & l & -> & HA & HB & E & HL) HS. apply Forall_app. split; [exact HA|]. constructor; [|exact HB].
    unfold calm. rewrite E. apply Forall_app. split; [exact HL|]. constructor; [exact HS|constructor].
  Qed.
  Lemma ended_here m x (h : H) (s : S) (hs : list H) : calm h -> Forall calm hs -> ended_by m x ((s, snd h ++ [(m, x)]) :: hs).
  Proof. intros HC HF. exists [], (s, snd h ++ [(m, x)]), hs, (snd h). now repeat split. Qed.
  Lemma ended_cons m x (h : H) (hs : list H) : calm h -> ended_by m x hs -> ended_by m x (h :: hs).
  Proof. intros HC (a & g & b & l & -> & HA & HB & E & HL). exists (h :: a), g, b, l. repeat split; try easy. now constructor. Qed.
  Lemma told_bad {A B} (P Q : meth -> cexn -> Prop) x hs : (forall m, P m x -> Q m x) -> told P (@Bad A x) hs -> told Q (@Bad B x) hs.
  Proof. intros HPQ [HC|(m & HP & HE)]; [now left|right; exists m; auto]. Qed.
  Lemma told_cons {A} P (r : cr A) h hs : calm h -> told P r hs -> told P r (h :: hs).
  Proof.
    intros HC. destruct r as [a|x]; cbn; [now constructor|]. intros [[HE HF]|(m & HP & HE)].
    - left. split; [exact HE|now constructor].
    - right. exists m. split; [exact HP|now apply ended_cons].
  Qed.

  Lemma s_raw len : forall hs, Forall calm hs -> told (fun m _ => m = MRaw) (fst (c_raw NO len hs)) (snd (c_raw NO len hs)).
  Proof.
    induction hs as [|h hs IH]; intros HF; [now constructor|]. inversion HF as [|? ? HC HF']; subst. cbn [c_raw noted o_raw].
    destruct (o_raw O len (fst h)) as [[[x|]|x] s]; cbn [note].
    - cbn. now constructor.
    - specialize (IH HF'). destruct (c_raw NO len hs) as [r hs1]. cbn [fst snd] in *. now apply told_cons.
    - cbn [fst snd told]. right. exists MRaw. split; [reflexivity|now apply ended_here].
  Qed.
  Lemma s_new i len : forall hs, Forall calm hs -> told (fun m x => m = MNew /\ x <> CFuture) (fst (c_new NO i len hs)) (snd (c_new NO i len hs)).
  Proof.
    induction hs as [|h hs IH]; intros HF; [now constructor|]. inversion HF as [|? ? HC HF']; subst. cbn [c_new noted o_new].
    destruct (o_new O i len (fst h)) as [[u|x] s]; cbn [note].
    - specialize (IH HF'). destruct (c_new NO i len hs) as [r hs1]. cbn [fst snd] in *. now apply told_cons.
    - pose proof (ended_here MNew x h s hs HC HF') as HE. destruct x; cbn [fst snd told]; try (right; exists MNew; now repeat split).
      apply (ended_calm _ _ _ HE). left. constructor.
  Qed.
  Lemma s_feed : forall hs cs d, Forall calm hs -> told (fun m _ => m = MData) (fst (c_feed NO d hs cs)) (fst (snd (c_feed NO d hs cs))).
  Proof.
    induction hs as [|h hs IH]; intros [|c cs] d HF; try exact HF. inversion HF as [|? ? HC HF']; subst. cbn [c_feed noted o_data].
    destruct (o_data O d c (fst h)) as [[[d1|]|x] s]; cbn [note].
    - specialize (IH cs d1 HF'). destruct (c_feed NO d1 hs cs) as [r [hs1 cs1]]. cbn [fst snd] in *. now apply told_cons.
    - now constructor.
    - right. exists MData. split; [reflexivity|]. now apply ended_here.
  Qed.
  Lemma s_done name f : forall hs cs, Forall calm hs ->
    told (fun m _ => m = MDone) (fst (c_complete NO truthy name hs cs f)) (snd (c_complete NO truthy name hs cs f)).
  Proof.
    induction hs as [|h hs IH]; intros [|c cs] HF; try exact HF. inversion HF as [|? ? HC HF']; subst. cbn [c_complete noted o_done].
    destruct (o_done O c (fst h)) as [[o|x] s]; cbn [note].
    - destruct (match o with Some f => truthy f | None => false end); [now constructor|].
      specialize (IH cs HF'). destruct (c_complete NO truthy name hs cs f) as [r hs1]. cbn [fst snd] in *. now apply told_cons.
    - right. exists MDone. split; [reflexivity|]. now apply ended_here.
  Qed.
  Lemma s_close : forall hs, Forall calm hs -> told (fun m _ => m = MClose) (fst (c_close NO hs)) (snd (c_close NO hs)).
  Proof.
    induction hs as [|h hs IH]; intros HF; [exact HF|]. inversion HF as [|? ? HC HF']; subst. cbn [c_close noted o_close].
    destruct (o_close O (fst h)) as [[o|x] s]; cbn [note].
    - specialize (IH HF'). destruct (c_close NO hs) as [r hs1]. cbn [fst snd] in *. now apply told_cons.
    - right. exists MClose. split; [reflexivity|]. now apply ended_here.
  Qed.
  Lemma s_end : forall hs, Forall calm hs -> told (fun m _ => m = MEnd) (fst (c_end NO hs)) (snd (c_end NO hs)).
  Proof.
    induction hs as [|h hs IH]; intros HF; [exact HF|]. inversion HF as [|? ? HC HF']; subst. cbn [c_end noted o_end].
    destruct (o_end O (fst h)) as [[[|]|x] s]; cbn [note].
    - now constructor.
    - specialize (IH HF'). destruct (c_end NO hs) as [r hs1]. cbn [fst snd] in *. now apply told_cons.
    - right. exists MEnd. split; [reflexivity|]. now apply ended_here.
  Qed.

  Context {R : Type} (rd : nat -> R -> res str * R) (exh : R -> res unit * R).
  Context (reg : registry) (name2cp : str -> option N) (st : mset) (D : str) (fuel : nat).
  Notation pn2 := (bi_next (ci_next rd) fuel).
  (** what may leave the treatment of a part, and what may leave parse *)
  Definition leaves (m : meth) (x : cexn) : Prop := (signal m x -> exists b, x = CStop b) /\ m <> MRaw /\ m <> MEnd.
  Lemma stop_calm m b (hs : list H) : leaves m (CStop b) -> ended_by m (CStop b) hs -> Forall calm hs.
  Proof. intros (_ & H1 & H2) HE. apply (ended_calm _ _ _ HE). destruct m; try easy; (left; constructor) || (right; constructor). Qed.
  Lemma told_exn {A} P e hs : Forall calm hs -> told P (@Bad A (CExn e)) hs.
  Proof. left. split; [now exists e|assumption]. Qed.

  Lemma s_file b64 : forall n hs cs s, Forall calm hs ->
    told (fun m _ => m = MData) (fst (fst (c_file_loop rd fuel NO n b64 hs cs s))) (fst (snd (fst (c_file_loop rd fuel NO n b64 hs cs s)))).
  Proof.
    induction n as [|n IH]; intros hs cs s HF; cbn [c_file_loop]; [now apply told_exn|].
    destruct (ls_next pn2 s) as [[c| |e] s1]; [|exact HF|now apply told_exn].
    destruct (if b64 then _ else _) as [[d|e] s2]; [|now apply told_exn].
    pose proof (s_feed hs cs d HF) as HX. destruct (c_feed NO d hs cs) as [[u|x] [hs1 cs1]]; cbn [fst snd] in *; [now apply IH|exact HX].
  Qed.
  Lemma s_deliver i len b64 p s : Forall calm (c_hs p) ->
    told leaves (fst (fst (c_deliver rd fuel NO i len b64 p s))) (c_hs (snd (fst (c_deliver rd fuel NO i len b64 p s)))).
  Proof.
    intros HF. unfold c_deliver. cbv zeta.
    assert (HSk : forall hs cs s1, Forall calm hs -> let a := match c_close NO hs with
         | (Bad x, hs1) => ((Bad x, mkC (c_core p) (c_files p) [] cs hs1), s1)
         | (Good _, hs1) => match ls_drain pn2 fuel s1 with
                            | (Err e, s2) => ((Bad (CExn e), mkC (c_core p) (c_files p) [] cs hs1), s2)
                            | (Ok _, s2) => ((Good tt, mkC (c_core p) (c_files p) [] cs hs1), s2)
                            end
         end in told leaves (fst (fst a)) (c_hs (snd (fst a)))).
    { cbv zeta. intros hs cs s1 HH. pose proof (s_close hs HH) as HC. destruct (c_close NO hs) as [[u|x] hs1]; cbn [fst snd] in HC.
      - destruct (ls_drain pn2 fuel s1) as [[v|e] s2]; [exact HC|now apply told_exn].
      - cbn [fst snd c_hs]. revert HC. apply told_weak. intros m y ->. split; [|easy]. intros HS. inversion HS. }
    pose proof (s_new i len (c_hs p) HF) as HN. destruct (c_new NO i len (c_hs p)) as [[u|x] hs]; cbn [fst snd] in HN.
    - pose proof (s_file b64 fuel hs (map (fun _ => 0) (c_hs p)) s HN) as HX.
      destruct (c_file_loop rd fuel NO fuel b64 hs (map (fun _ => 0) (c_hs p)) s) as [[[v|x] [hs1 cs1]] s1]; cbn [fst snd] in HX; [exact HX|].
      assert (HD : forall y, y <> CSkip -> told (fun m _ => m = MData) (@Bad unit y) hs1 -> told leaves (@Bad unit y) hs1).
      { intros y Hy. apply told_bad. intros m ->. split; [|easy]. intros HS. inversion HS; subst; [now contradiction Hy|eauto]. }
      assert (HK : told (fun m _ => m = MData) (@Bad unit CSkip) hs1 -> Forall calm hs1).
      { intros [[_ HC]|(m & -> & HE)]; [exact HC|]. apply (ended_calm _ _ _ HE). left. constructor. }
      destruct x as [e| |b|]; try (apply HD; [easy|exact HX]). apply HSk. now apply HK.
    - assert (HD : forall y, y <> CSkip -> told (fun m x => m = MNew /\ x <> CFuture) (@Bad unit y) hs -> told leaves (@Bad unit y) hs).
      { intros y Hy. apply told_bad. intros m [-> Hf]. split; [|easy]. intros HS. inversion HS; subst; [now contradiction Hy|now contradiction Hf|eauto]. }
      assert (HK : told (fun m x => m = MNew /\ x <> CFuture) (@Bad unit CSkip) hs -> Forall calm hs).
      { intros [[_ HC]|(m & [-> _] & HE)]; [exact HC|]. apply (ended_calm _ _ _ HE). left. constructor. }
      destruct x as [e| |b|]; try (apply HD; [easy|exact HN]). apply HSk. now apply HK.
  Qed.
  Lemma s_finish p : Forall calm (c_hs p) ->
    told leaves (fst (c_finish NO truthy p)) (c_hs (snd (c_finish NO truthy p))).
  Proof.
    intros HF. unfold c_finish. destruct (c_old p) as [|x l]; [exact HF|].
    pose proof (s_done (x :: l) (c_files p) (c_hs p) (c_counters p) HF) as HX.
    destruct (c_complete NO truthy (x :: l) (c_hs p) (c_counters p) (c_files p)) as [[f|y] hs]; cbn [fst snd c_hs] in *; [exact HX|].
    revert HX. apply told_bad. intros m ->. split; [|easy]. intros HS. inversion HS; eauto.
  Qed.
  Lemma s_part ty m p s : Forall calm (c_hs p) ->
    told leaves (fst (fst (c_part rd reg name2cp st fuel NO ty m p s))) (c_hs (snd (fst (c_part rd reg name2cp st fuel NO ty m p s)))).
  Proof.
    intros HF. unfold c_part, c_read_file.
    destruct (dget CDISP m) as [[v disp]|]; [|exact HF]. destruct (dget !"name" disp) as [raw|]; [|exact HF]. cbv zeta.
    destruct (to_native (pstrip raw)) as [name|e]; [|now apply told_exn]. destruct ty; [exact HF| |].
    - destruct (match dget !"filename" disp with Some f => _ | None => _ end) as [[|x fn]|e]; [exact HF| |now apply told_exn].
      destruct (match dget !"content-type" m with Some v0 => _ | None => _ end) as [ct extra]. now apply s_deliver.
    - destruct (read_field rd reg st fuel name _ m (c_core p) s) as [[core|e] s1]; [exact HF|now apply told_exn].
  Qed.
  Lemma s_loop : forall n p s, Forall calm (c_hs p) ->
    told leaves (fst (fst (c_loop rd reg name2cp st D fuel NO truthy n p s))) (c_hs (snd (fst (c_loop rd reg name2cp st D fuel NO truthy n p s)))).
  Proof.
    induction n as [|n IH]; intros p s HF; cbn [c_loop]; [now apply told_exn|].
    destruct (bi_init (ci_next rd) fuel s D) as [[b|e] s1].
    2:{ destruct e; first [exact HF | now apply told_exn]. }
    destruct (parse_boundary_stream rd reg fuel (ls_init b None)) as [[[ty m]|e] s2]; [|now apply told_exn].
    pose proof (s_finish p HF) as HX. destruct (c_finish NO truthy p) as [[u|x] p1]; cbn [fst snd] in HX; [|exact HX].
    pose proof (s_part ty m p1 s2 HX) as HP. destruct (c_part rd reg name2cp st fuel NO ty m p1 s2) as [[[v|x] p2] s3]; cbn [fst snd] in HP; [|exact HP].
    now apply IH.
  Qed.
  Definition out_of (m : meth) (x : cexn) : Prop := ~ signal m x.
  Lemma s_return p hs (r : R) : Forall calm hs -> told out_of (fst (fst (c_return NO p hs r))) (snd (fst (c_return NO p hs r))).
  Proof.
    intros HF. pose proof (s_end hs HF) as HE. unfold c_return. destruct (c_end NO hs) as [[u|x] hs1]; cbn [fst snd] in *; [exact HE|].
    revert HE. apply told_bad. intros m ->. intros HS. inversion HS.
  Qed.
  Lemma s_parse len csize hs r : Forall calm hs ->
    let a := c_parse rd exh reg name2cp st D fuel NO truthy len csize hs r in told out_of (fst (fst a)) (snd (fst a)).
  Proof.
    intros HF. cbv zeta. unfold c_parse. cbv zeta.
    destruct (Z.eqb len 0); [destruct (querydict reg (Some (ms_query st)) None true) as [qd|e]; [exact HF|now apply told_exn]|].
    pose proof (s_raw len hs HF) as HR. destruct (c_raw NO len hs) as [[[x|]|x] hs1]; cbn [fst snd] in HR.
    - exact HR.
    - destruct (querydict reg (Some (ms_query st)) None true) as [qd|e]; [|now apply told_exn]. pose proof (s_loop fuel (mkC core0 [] [] (map (fun _ => 0) hs1) hs1) (ls_init (mkCI r csize) None) HR) as HL.
      destruct (c_loop rd reg name2cp st D fuel NO truthy fuel _ _) as [[[u|x] p1] s]; cbn [fst snd] in HL.
      + destruct (exh (input_of r s)) as [[v|e] r1]; [now apply s_return|now apply told_exn].
      + assert (HD : (forall b, x <> CStop b) -> told leaves (@Bad unit x) (c_hs p1) -> told out_of (@Bad (outcome (F := F) (X := X)) x) (c_hs p1)).
        { intros Hx [HC|(m & HP & HE)]; [now left|]. right. exists m. split; [|exact HE]. intros HS. destruct (proj1 HP HS) as [b Hb]. now apply (Hx b). }
        destruct x as [e| |reset|]; try (apply HD; [easy|exact HL]).
        assert (HC : Forall calm (c_hs p1)).
        { destruct HL as [[_ HC]|(m & HP & HE)]; [exact HC|]. exact (stop_calm m reset _ HP HE). }
        pose proof (s_close (c_hs p1) HC) as HX. destruct (c_close NO (c_hs p1)) as [[v|y] hs2]; cbn [fst snd] in HX.
        * destruct reset; [now apply s_return|]. destruct (exh (input_of r s)) as [[w|e] r1]; [now apply s_return|now apply told_exn].
        * cbn [fst snd]. revert HX. apply told_bad. intros m ->. intros HS. inversion HS.
    - cbn [fst snd]. revert HR. apply told_bad. intros m ->. intros HS. inversion HS.
  Qed.
End Signals.

(** whatever a method raises that is not one of these signals comes out of parse, and nothing else
    is raised by any handler: no failure of a handler (a full disk, a bug) is swallowed *)
Theorem C126_never_swallowed :
  forall S F X (O : ops S F X) truthy R rd exh reg name2cp st D fuel len csize hs (r : R) out hs' r',
    Forall (fun h => snd h = []) hs ->
    c_parse rd exh reg name2cp st D fuel (noted O) truthy len csize hs r = (out, hs', r') ->
    forall h m x, In h hs' -> In (m, x) (snd h) -> ~ signal m x -> ~ maybe m x -> out = Bad x /\ ended_by m x hs'.
Proof.
  intros S F X O truthy R rd exh reg name2cp st D fuel len csize hs r out hs' r' H0 E h m x Hh Hx HS HM.
  assert (HF : Forall calm hs). { eapply Forall_impl; [|exact H0]. intros g Hg. unfold calm. rewrite Hg. constructor. }
  pose proof (s_parse O truthy rd exh reg name2cp st D fuel len csize hs r HF) as HT. cbv zeta in HT. rewrite E in HT. cbn [fst snd] in HT.
  assert (HN : ~ Forall calm hs').
  { intros HC. rewrite Forall_forall in HC. specialize (HC h Hh). unfold calm in HC. rewrite Forall_forall in HC. specialize (HC _ Hx). cbn in HC. tauto. }
  destruct out as [o|y]; [contradiction|]. destruct HT as [[_ HC]|(m' & HP & HE)]; [contradiction|].
  destruct HE as (a & g & b & l & -> & HA & HB & Eg & HL).
  assert (HU : (m, x) = (m', y)).
  { apply in_app_or in Hh as [Hh|[<-|Hh]].
    - rewrite Forall_forall in HA. specialize (HA h Hh). unfold calm in HA. rewrite Forall_forall in HA. specialize (HA _ Hx). cbn in HA. tauto.
    - rewrite Eg in Hx. apply in_app_or in Hx as [Hx|[Hx|[]]]; [|now rewrite Hx].
      rewrite Forall_forall in HL. specialize (HL _ Hx). cbn in HL. tauto.
    - rewrite Forall_forall in HB. specialize (HB h Hh). unfold calm in HB. rewrite Forall_forall in HB. specialize (HB _ Hx). cbn in HB. tauto. }
  injection HU as -> ->. split; [reflexivity|]. now exists a, g, b, l.
Qed.
Print Assumptions C126_never_swallowed.

(** the other way round: a SkipFile, StopFutureHandlers or StopUpload that comes out was raised where the
    parser does not act upon it, as the last thing that happened *)
Theorem C126_signals_taken :
  forall S F X (O : ops S F X) truthy R rd exh reg name2cp st D fuel len csize hs (r : R) x hs' r',
    Forall (fun h => snd h = []) hs ->
    c_parse rd exh reg name2cp st D fuel (noted O) truthy len csize hs r = (Bad x, hs', r') ->
    (forall e, x <> CExn e) -> exists m, ~ signal m x /\ ended_by m x hs'.
Proof.
  intros S F X O truthy R rd exh reg name2cp st D fuel len csize hs r x hs' r' H0 E Hx.
  assert (HF : Forall calm hs). { eapply Forall_impl; [|exact H0]. intros g Hg. unfold calm. rewrite Hg. constructor. }
  pose proof (s_parse O truthy rd exh reg name2cp st D fuel len csize hs r HF) as HT. cbv zeta in HT. rewrite E in HT. cbn [fst snd] in HT.
  destruct HT as [[[e He] _]|(m & HP & HE)]; [now contradiction (Hx e)|]. now exists m.
Qed.
Print Assumptions C126_signals_taken.

(** writing down what is raised does not change the parse *)
Lemma noted_alike {S F X} (O : ops S F X) truthy :
  let same (x : list (S * list (meth * cexn)) * list nat) (y : list S * list nat) := map fst (fst x) = fst y /\ snd x = snd y in
  alike (noted O) O truthy truthy eq same same.
Proof.
  cbv zeta.
  assert (HN : forall i len hs, fst (c_new (noted O) i len hs) = fst (c_new O i len (map fst hs)) /\
    map fst (snd (c_new (noted O) i len hs)) = snd (c_new O i len (map fst hs))).
  { induction hs as [|h hs [IH1 IH2]]; [easy|]. cbn [map c_new noted o_new].
    destruct (o_new O i len (fst h)) as [[u|x] s]; cbn [note]; [|now destruct x].
    destruct (c_new (noted O) i len hs), (c_new O i len (map fst hs)). cbn in *. now subst. }
  assert (HD : forall hs cs d, fst (c_feed (noted O) d hs cs) = fst (c_feed O d (map fst hs) cs) /\
    map fst (fst (snd (c_feed (noted O) d hs cs))) = fst (snd (c_feed O d (map fst hs) cs)) /\
    snd (snd (c_feed (noted O) d hs cs)) = snd (snd (c_feed O d (map fst hs) cs))).
  { induction hs as [|h hs IH]; intros [|c cs] d; try easy. cbn [map c_feed noted o_data].
    destruct (o_data O d c (fst h)) as [[[d1|]|x] s]; cbn [note]; [|easy|easy]. destruct (IH cs d1) as (I1 & I2 & I3).
    destruct (c_feed (noted O) d1 hs cs) as [? [? ?]], (c_feed O d1 (map fst hs) cs) as [? [? ?]]. cbn in *. now subst. }
  assert (HE : forall name f hs cs, fst (c_complete (noted O) truthy name hs cs f) = fst (c_complete O truthy name (map fst hs) cs f) /\
    map fst (snd (c_complete (noted O) truthy name hs cs f)) = snd (c_complete O truthy name (map fst hs) cs f)).
  { induction hs as [|h hs IH]; intros [|c cs]; try easy. cbn [map c_complete noted o_done].
    destruct (o_done O c (fst h)) as [[o|x] s]; cbn [note]; [|easy].
    destruct (match o with Some g => truthy g | None => false end); [easy|]. destruct (IH cs) as (I1 & I2).
    destruct (c_complete (noted O) truthy name hs cs f), (c_complete O truthy name (map fst hs) cs f). cbn in *. now subst. }
  assert (HC : forall hs, fst (c_close (noted O) hs) = fst (c_close O (map fst hs)) /\ map fst (snd (c_close (noted O) hs)) = snd (c_close O (map fst hs))).
  { induction hs as [|h hs [I1 I2]]; [easy|]. cbn [map c_close noted o_close]. destruct (o_close O (fst h)) as [[u|x] s]; cbn [note]; [|easy].
    destruct (c_close (noted O) hs), (c_close O (map fst hs)). cbn in *. now subst. }
  assert (HZ : forall hs : list (S * list (meth * cexn)), zeros hs = zeros (map fst hs)) by (intros hs; unfold zeros; now rewrite map_map).
  constructor; cbn [fst snd].
  - easy.
  - intros i len [hs cs] [hs' cs'] HS. cbn [fst snd] in HS. destruct HS as [<- <-]. destruct (HN i len hs) as [E1 E2]. split; [exact E1|]. cbn [fst snd].
    destruct (fst (c_new (noted O) i len hs)); (split; [exact E2|apply HZ]).
  - intros d [hs cs] [hs' cs'] HS. cbn [fst snd] in HS. destruct HS as [<- <-]. cbn [fst snd]. destruct (HD hs cs d) as (E1 & E2 & E3). split; [exact E1|].
    destruct (fst (c_feed (noted O) d hs cs)); now split.
  - intros name [hs cs] [hs' cs'] f1 f2 HS Hf. cbn [fst snd] in HS. destruct HS as [<- <-]. cbv zeta. cbn [fst snd].
    assert (f1 = f2).
    { clear -Hf. assert (HL : forall l1 l2 : list F, Forall2 eq l1 l2 -> l1 = l2) by (induction 1; congruence).
      induction Hf as [|[k1 l1] [k2 l2] d1 d2 [E H] _ ->]; [reflexivity|]. cbn in E, H. apply HL in H. now subst. }
    subst f2. destruct (HE name f1 hs cs) as [E1 E2]. split; [|now split]. rewrite E1.
    destruct (fst (c_complete O truthy name (map fst hs) cs f1)) as [d|x]; [|reflexivity]. cbn.
    clear. induction d as [|[k l] d IH]; constructor; [|exact IH]. split; [reflexivity|]. cbn. induction l; now constructor.
  - intros [hs cs] [hs' cs'] HS. cbn [fst snd] in HS. destruct HS as [<- <-]. cbn [fst snd]. destruct (HC hs) as [E1 E2]. now repeat split.
  - intros [hs cs] [hs' cs'] HS. cbn [fst snd] in HS. destruct HS as [<- _]. cbn [fst snd]. induction hs as [|h hs IH]; [easy|]. cbn [map c_end noted o_end].
    destruct (o_end O (fst h)) as [[[|]|x] s]; cbn [note]; [easy| |easy].
    now destruct (c_end (noted O) hs), (c_end O (map fst hs)).
Qed.
Theorem C126_noted_same :
  forall S F X (O : ops S F X) truthy R rd exh reg name2cp st D fuel len csize hs (r : R),
    let a := c_parse rd exh reg name2cp st D fuel (noted O) truthy len csize hs r in
    let b := c_parse rd exh reg name2cp st D fuel O truthy len csize (map fst hs) r in
    fst (fst a) = fst (fst b) /\ snd a = snd b.
Proof.
  intros S F X O truthy R rd exh reg name2cp st D fuel len csize hs r. cbv zeta.
  assert (HR : forall hs, fst (c_raw (noted O) len hs) = fst (c_raw O len (map fst hs)) /\ map fst (snd (c_raw (noted O) len hs)) = snd (c_raw O len (map fst hs))).
  { clear. induction hs as [|h l [I1 I2]]; [easy|]. cbn [map c_raw noted o_raw]. destruct (o_raw O len (fst h)) as [[[x|]|x] s]; cbn [note]; [easy| |easy].
    destruct (c_raw (noted O) len l), (c_raw O len (map fst l)). cbn in *. now subst. }
  destruct (HR hs) as [E1 E2].
  destruct (par_parse (noted O) O truthy truthy eq eq _ _ (noted_alike O truthy) rd exh reg name2cp st st D fuel
              eq_refl eq_refl eq_refl len len csize hs (map fst hs) r) as [H1 H2]; [easy| |split; cbn [fst snd]; [exact E2|unfold zeros; now rewrite <- E2, map_map]|].
  - rewrite E1. destruct (fst (c_raw O len (map fst hs))) as [[x|]|x]; easy.
  - split; [|exact H2].
    destruct (fst (fst (c_parse rd exh reg name2cp st D fuel (noted O) truthy len csize hs r))) as [[x|p f]|x],
      (fst (fst (c_parse rd exh reg name2cp st D fuel O truthy len csize (map fst hs) r))) as [[y|p' f']|y]; cbn in H1; try easy; try congruence.
    destruct H1 as [-> H1]. f_equal. f_equal.
    clear -H1. assert (HL : forall l1 l2 : list F, Forall2 eq l1 l2 -> l1 = l2) by (induction 1; congruence).
    induction H1 as [|[k1 l1] [k2 l2] d1 d2 [E H] _ ->]; [reflexivity|]. cbn in E, H. apply HL in H. now subst.
Qed.
Print Assumptions C126_noted_same.

(** a handler that writes to a disk with [cap] bytes left (write() raises IOError), after one that skips
    every file with a certain name *)
Inductive exdisk := Picky (n : str) | Disk (left : nat) (got : str).
Definition ex_disk : ops exdisk str unit :=
  mkOps exdisk str unit
    (fun _ h => (Good None, h))
    (fun i _ h => match h with
                  | Picky n => (if seqb (fi_name i) n then Bad CSkip else Good tt, h)
                  | Disk c _ => (Good tt, Disk c [])
                  end)
    (fun d _ h => match h with
                  | Picky _ => (Good (Some d), h)
                  | Disk c g => if Nat.leb (length d) c then (Good None, Disk (c - length d) (g ++ d)) else (Bad (CExn IOError), h)
                  end)
    (fun _ h => match h with Picky _ => (Good None, h) | Disk _ g => (Good (Some g), h) end)
    (fun h => (Good tt, h))
    (fun h => (Good false, h)).
Definition ex_full (cap : nat) (n : str) :=
  c_parse src_read it_exhaust ex_reg no_cp ex_ms !"--X" 600 (noted ex_disk) nonempty 1%Z 4096
    [(Picky n, []); (Disk cap [], [])] [SData (render_form !"--X" ex_parts)].
Example C126_case :
  (exists post files hs r, ex_full 1000 !"none" = (Good (Parsed post files), hs, r) /\ map fst files = [!"f"]) /\
  (exists hs r, ex_full 5 !"none" = (Bad (CExn IOError), hs, r) /\ map snd hs = [[]; [(MData, CExn IOError)]]) /\
  (exists post hs r, ex_full 5 !"x;1.txt" = (Good (Parsed post [(!"f", [!"abc"])]), hs, r) /\ map snd hs = [[(MNew, CSkip)]; []]).
Proof. vm_compute. repeat split; eexists _, _; try eexists _; try eexists _; split; reflexivity. Qed.

(** ** C127 *)
(** what the handlers [a] leave of themselves and of the input when all of them return None *)
Inductive asked {S X R} (raw : Z -> S -> R -> cr (option X) * S * R) (len : Z) : list S -> R -> list S -> R -> Prop :=
| asked_none r : asked raw len [] r [] r
| asked_one h h' hs hs' r r1 r2 : raw len h r = (Good None, h', r1) -> asked raw len hs r1 hs' r2 -> asked raw len (h :: hs) r (h' :: hs') r2.

Lemma rawin_iff {S X R} (raw : Z -> S -> R -> cr (option X) * S * R) len q hs r hs' r' :
  c_rawin raw len hs r = (q, hs', r') <->
  (q = Good None /\ asked raw len hs r hs' r') \/
  exists a a' h h' b r1, hs = a ++ h :: b /\ asked raw len a r a' r1 /\ raw len h r1 = (q, h', r') /\ q <> Good None /\ hs' = a' ++ h' :: b.
Proof.
  revert r hs'. induction hs as [|h hs IH]; intros r hs'.
  - cbn [c_rawin]. split.
    + intros E. injection E as <- <- <-. left. split; [reflexivity|constructor].
    + intros [[-> H]|([|? ?] & ? & ? & ? & ? & ? & ? & _)]; [now inversion H|discriminate|discriminate].
  - cbn [c_rawin]. destruct (raw len h r) as [[[[x|]|x] h1] r1] eqn:E.
    1, 3: split.
    + intros E1. injection E1 as <- <- <-. right. exists [], [], h, h1, hs, r. repeat split; try easy. constructor.
    + intros [[-> H]|(a & a' & g & g' & b & r2 & E1 & HA & HG & HQ & ->)].
      * inversion H; subst. congruence.
      * destruct a as [|a0 a]; [|injection E1 as <- ->; inversion HA; subst; congruence].
        injection E1 as -> ->. inversion HA; subst. rewrite E in HG. now injection HG as <- -> ->.
    + intros E1. injection E1 as <- <- <-. right. exists [], [], h, h1, hs, r. repeat split; try easy. constructor.
    + intros [[-> H]|(a & a' & g & g' & b & r2 & E1 & HA & HG & HQ & ->)].
      * inversion H; subst. congruence.
      * destruct a as [|a0 a]; [|injection E1 as <- ->; inversion HA; subst; congruence].
        injection E1 as -> ->. inversion HA; subst. rewrite E in HG. now injection HG as <- -> ->.
    + destruct (c_rawin raw len hs r1) as [[q1 hs1] r3] eqn:EC. split.
      * intros E1. injection E1 as -> <- ->. apply IH in EC as [[-> H]|(a & a' & g & g' & b & r2 & -> & HA & HG & HQ & ->)].
        -- left. split; [reflexivity|]. eapply asked_one; eassumption.
        -- right. exists (h :: a), (h1 :: a'), g, g', b, r2. repeat split; try easy. eapply asked_one; eassumption.
      * intros [[-> H]|(a & a' & g & g' & b & r2 & E1 & HA & HG & HQ & ->)].
        -- inversion H as [|? h0 ? hs0 ? r0 ? K1 K2]; subst. rewrite E in K1. injection K1 as <- <-.
           assert (K : c_rawin raw len hs r1 = (Good None, hs0, r')) by (apply IH; now left). rewrite EC in K. now injection K as -> -> ->.
        -- destruct a as [|a0 a].
           ++ injection E1 as <- ->. inversion HA; subst. rewrite E in HG. injection HG as <- -> ->. now contradiction HQ.
           ++ injection E1 as <- ->. inversion HA as [|? h0 ? hs0 ? r0 ? K1 K2]; subst. rewrite E in K1. injection K1 as <- <-.
              assert (K : c_rawin raw len (a ++ g :: b) r1 = (q, hs0 ++ g' :: b, r')) by (apply IH; right; now exists a, hs0, g, g', b, r2).
              rewrite EC in K. now injection K as -> -> ->.
Qed.
Lemma not_handled {S F X} (O : ops S F X) truthy R rd exh reg name2cp st D fuel len csize hs (r : R) x hs' r' :
  c_parse rd exh reg name2cp st D fuel (passed O) truthy len csize hs r <> (Good (Handled x), hs', r').
Proof.
  assert (HR : forall hs, c_raw (passed O) len hs = (Good None, hs)) by (clear; induction hs as [|h hs IH]; [easy|]; cbn [c_raw passed o_raw]; now rewrite IH).
  assert (HN : forall p hs2 (r1 : R), c_return (F := F) (passed O) p hs2 r1 <> (Good (Handled x), hs', r')).
  { intros p hs2 r1. unfold c_return. now destruct (c_end (passed O) hs2) as [[u|z] hs3]. }
  unfold c_parse. cbv zeta. rewrite HR. destruct (querydict reg (Some (ms_query st)) None true) as [qd|e]; destruct (Z.eqb len 0); try discriminate.
  destruct (c_loop rd reg name2cp st D fuel (passed O) truthy fuel _ _) as [[[u|z] p1] s].
  - destruct (exh (input_of r s)) as [[v|e] r1]; [apply HN|discriminate].
  - destruct z as [e| |reset|]; try discriminate. destruct (c_close (passed O) (c_hs p1)) as [[v|z] hs2]; [|discriminate].
    destruct reset; [apply HN|]. destruct (exh (input_of r s)) as [[v1|e] r1]; [apply HN|discriminate].
Qed.

(** the handlers are asked in order; the first that returns something ends the parse: what it returned is the
    result, the input is as it left it, the handlers after it are as they were and no other method was called *)
Theorem C127_take_over :
  forall S F X R (raw : Z -> S -> R -> cr (option X) * S * R) (O : ops S F X) truthy rd exh reg name2cp st D fuel len csize hs (r : R) x hs' r',
    len <> 0%Z ->
    c_parse_in raw rd exh reg name2cp st D fuel O truthy len csize hs r = (Good (Handled x), hs', r') <->
    exists a a' h h' b r1, hs = a ++ h :: b /\ asked raw len a r a' r1 /\ raw len h r1 = (Good (Some x), h', r') /\ hs' = a' ++ h' :: b.
Proof.
  intros S F X R raw O truthy rd exh reg name2cp st D fuel len csize hs r x hs' r' Hl.
  unfold c_parse_in. destruct (Z.eqb_spec len 0) as [|_]; [contradiction|]. split.
  - destruct (c_rawin raw len hs r) as [[[[y|]|y] hs1] r1] eqn:E; [|intros K; now apply not_handled in K|discriminate].
    intros E1. injection E1 as -> -> ->. apply rawin_iff in E as [[? _]|(a & a' & h & h' & b & r2 & H)]; [discriminate|].
    exists a, a', h, h', b, r2. tauto.
  - intros (a & a' & h & h' & b & r1 & E1 & E2 & E3 & E4).
    assert (K : c_rawin raw len hs r = (Good (Some x), hs', r')) by (apply rawin_iff; right; now exists a, a', h, h', b, r1).
    now rewrite K.
Qed.
Print Assumptions C127_take_over.
(** whatever handle_raw_input raises comes out, and nothing else happens *)
Theorem C127_raised :
  forall S F X R (raw : Z -> S -> R -> cr (option X) * S * R) (O : ops S F X) truthy rd exh reg name2cp st D fuel len csize a h b (r : R) a' r1 x h' r2,
    len <> 0%Z -> asked raw len a r a' r1 -> raw len h r1 = (Bad x, h', r2) ->
    c_parse_in raw rd exh reg name2cp st D fuel O truthy len csize (a ++ h :: b) r = (Bad x, a' ++ h' :: b, r2).
Proof.
  intros S F X R raw O truthy rd exh reg name2cp st D fuel len csize a h b r a' r1 x h' r2 Hl HA HR.
  unfold c_parse_in. destruct (Z.eqb_spec len 0) as [|_]; [contradiction|].
  assert (K : c_rawin raw len (a ++ h :: b) r = (Bad x, a' ++ h' :: b, r2)) by (apply rawin_iff; right; now exists a, a', h, h', b, r1).
  now rewrite K.
Qed.
Print Assumptions C127_raised.
(** when nobody takes over, what was read from the input is gone: the form is parsed from the rest *)
Theorem C127_nobody :
  forall S F X R (raw : Z -> S -> R -> cr (option X) * S * R) (O : ops S F X) truthy rd exh reg name2cp st D fuel len csize hs (r : R) hs1 r1,
    len <> 0%Z -> asked raw len hs r hs1 r1 ->
    c_parse_in raw rd exh reg name2cp st D fuel O truthy len csize hs r =
    c_parse rd exh reg name2cp st D fuel (passed O) truthy len csize hs1 r1.
Proof.
  intros S F X R raw O truthy rd exh reg name2cp st D fuel len csize hs r hs1 r1 Hl HA.
  unfold c_parse_in. destruct (Z.eqb_spec len 0) as [|_]; [contradiction|].
  assert (K : c_rawin raw len hs r = (Good None, hs1, r1)) by (apply rawin_iff; now left). now rewrite K.
Qed.
Print Assumptions C127_nobody.
(** with a content length of 0 no handler is asked and nothing is read *)
Theorem C127_nothing_announced :
  forall S F X R (raw : Z -> S -> R -> cr (option X) * S * R) (O : ops S F X) truthy rd exh reg name2cp st D fuel csize hs (r : R),
    snd (fst (c_parse_in raw rd exh reg name2cp st D fuel O truthy 0%Z csize hs r)) = hs /\
    snd (c_parse_in raw rd exh reg name2cp st D fuel O truthy 0%Z csize hs r) = r.
Proof. intros. unfold c_parse_in, c_parse. rewrite Z.eqb_refl. cbv zeta. now destruct (querydict reg (Some (ms_query st)) None true). Qed.
Print Assumptions C127_nothing_announced.
(** handlers that do not read are those of [c_parse] *)
Theorem C127_same_parser :
  forall S F X R (O : ops S F X) truthy rd exh reg name2cp st D fuel len csize hs (r : R),
    c_parse_in (fun len h r => (o_raw O len h, r)) rd exh reg name2cp st D fuel O truthy len csize hs r =
    c_parse rd exh reg name2cp st D fuel O truthy len csize hs r.
Proof.
  intros S F X R O truthy rd exh reg name2cp st D fuel len csize hs r. unfold c_parse_in.
  destruct (Z.eqb len 0) eqn:El; [reflexivity|].
  assert (K : c_rawin (fun len h (r : R) => (o_raw O len h, r)) len hs r = (c_raw O len hs, r)).
  { clear. induction hs as [|h hs IH]; [reflexivity|]. cbn [c_rawin c_raw]. destruct (o_raw O len h) as [[[x|]|x] h1]; try reflexivity.
    rewrite IH. now destruct (c_raw O len hs). }
  rewrite K. assert (HR : forall hs, c_raw (passed O) len hs = (Good None, hs)) by (clear; induction hs as [|h hs IH]; [easy|]; cbn [c_raw passed o_raw]; now rewrite IH).
  unfold c_parse at 2. rewrite El. destruct (c_raw O len hs) as [[[x|]|x] hs1]; try reflexivity.
  unfold c_parse. rewrite El, HR. reflexivity.
Qed.
Print Assumptions C127_same_parser.
(** the second of three handlers reads everything and takes over; that the charset is unknown does not matter
    then.  Without it, the parse fails. *)
Definition ex_taker (len : Z) (h : nat) (r : src) : cr (option str) * nat * src :=
  match h with
  | 1 => (Good (Some !"mine"), 11, [])
  | _ => let (d, r1) := src_read 1 r in (Good None, h + 10, r1)
  end.
Definition ex_dull : ops nat str str :=
  mkOps nat str str (fun _ h => (Good None, h)) (fun _ _ h => (Good tt, h)) (fun d _ h => (Good (Some d), h))
    (fun _ h => (Good None, h)) (fun h => (Good tt, h)) (fun h => (Good false, h)).
Example C127_case :
  c_parse_in ex_taker src_read it_exhaust (fun _ => None) no_cp ex_ms !"--X" 600 ex_dull nonempty 1%Z 4096 [0; 1; 2] [SData !"abc"] =
    (Good (Handled !"mine"), [10; 11; 2], []) /\
  fst (fst (c_parse_in ex_taker src_read it_exhaust (fun _ => None) no_cp ex_ms !"--X" 600 ex_dull nonempty 1%Z 4096 [0; 2] [SData !"abc"])) = Bad (CExn LookupError).
Proof. vm_compute. now split. Qed.
