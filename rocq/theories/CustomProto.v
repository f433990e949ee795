(** * In which order the methods of a handler are called (claim C95) *)
From Verif Require Import Py Spec PyFacts PyDict StreamModel StreamSpec StreamFacts
  CodecModel QueryModel Base64Model HeaderModel
  BoundaryModel UploadModel MultipartModel MultipartSem MultipartSpec CustomModel CustomSem CustomFacts CustomRun.

(** ** The specification *)
Inductive event := ENew (i : finfo) (len : option Z) | EData (d : str) (start : nat) | EDone (size : nat) | EClose | EEnd.
Definition is_data (e : event) : Prop := match e with EData _ _ => True | _ => False end.
Definition data_len (e : event) : nat := match e with EData d _ => length d | _ => 0 end.

(** the last new_file has been followed by calls of receive_data_chunk only, with [n] bytes in all *)
Definition in_file (l : list event) (n : nat) : Prop :=
  exists l0 i len evs, l = l0 ++ ENew i len :: evs /\ Forall is_data evs /\ n = list_sum (map data_len evs).
(** each receive_data_chunk and file_complete gets the number of bytes received since new_file;
    nothing is called after upload_complete *)
Definition protocol (l : list event) : Prop :=
  forall l1 e l2, l = l1 ++ e :: l2 -> match e with EData _ n | EDone n => in_file l1 n | EEnd => l2 = [] | _ => True end.

(** the content given to receive_data_chunk for each new_file *)
Fixpoint data_of (l : list event) : str :=
  match l with
  | EData d _ :: r => d ++ data_of r
  | ENew _ _ :: _ | [] => []
  | _ :: r => data_of r
  end.
Fixpoint received (l : list event) : list (str * str * str) :=
  match l with
  | ENew i _ :: r => (fi_field i, fi_name i, data_of r) :: received r
  | _ :: r => received r
  | [] => []
  end.

(** handlers that record how they are called *)
Definition logged {S F X} (O : ops S F X) : ops (S * list event) F X :=
  mkOps _ F X
    (fun len h => let (r, s) := o_raw O len (fst h) in (r, (s, snd h)))
    (fun i len h => let (r, s) := o_new O i len (fst h) in (r, (s, snd h ++ [ENew i len])))
    (fun d n h => let (r, s) := o_data O d n (fst h) in (r, (s, snd h ++ [EData d n])))
    (fun n h => let (r, s) := o_done O n (fst h) in (r, (s, snd h ++ [EDone n])))
    (fun h => let (r, s) := o_close O (fst h) in (r, (s, snd h ++ [EClose])))
    (fun h => let (r, s) := o_end O (fst h) in (r, (s, snd h ++ [EEnd]))).

Lemma protocol_nil : protocol [].
Proof. intros [|x l1] e l2 H; easy. Qed.
Lemma protocol_snoc l e : protocol l -> ~ In EEnd l -> match e with EData _ n | EDone n => in_file l n | _ => True end -> protocol (l ++ [e]).
Proof.
  intros H HE He l1 e' l2 E. destruct (exists_last (l := e' :: l2) ltac:(easy)) as (l3 & x & E3). rewrite E3, app_assoc in E.
  apply app_inj_tail in E as [E ->]. destruct l3 as [|y l3].
  - cbn in E3. injection E3 as -> ->. rewrite app_nil_r in E. subst l1. now destruct x.
  - cbn in E3. injection E3 as -> ->. specialize (H l1 y l3 E). destruct y; try easy. destruct HE. rewrite E. apply in_or_app. right. now left.
Qed.
Lemma in_file_new l i len : in_file (l ++ [ENew i len]) 0.
Proof. exists l, i, len, []. now repeat split. Qed.
Lemma in_file_data l n d s : in_file l n -> in_file (l ++ [EData d s]) (n + length d).
Proof.
  intros (l0 & i & len & evs & -> & HF & ->). exists l0, i, len, (evs ++ [EData d s]). rewrite <- app_assoc. split; [easy|].
  split; [apply Forall_app; split; [easy|now repeat constructor]|]. rewrite map_app, list_sum_app. cbn. lia.
Qed.

(** ** What holds of the handlers throughout *)
Section Throughout.
  Context {S F X : Type} (O : ops S F X) (truthy : F -> bool).
  Context (GOOD FIN : list S -> Prop) (OPEN : list S -> list nat -> Prop).
  Context (H_open : forall hs cs, OPEN hs cs -> GOOD hs).
  Context (H_raw : forall len hs, GOOD hs -> GOOD (snd (c_raw O len hs))).
  Context (H_new : forall i len hs, GOOD hs -> match c_new O i len hs with
     | (Good _, hs') => OPEN hs' (map (fun _ => 0) hs) | (Bad _, hs') => GOOD hs' end).
  Context (H_feed : forall d hs cs, OPEN hs cs -> match c_feed O d hs cs with
     | (Good _, (hs', cs')) => OPEN hs' cs' | (Bad _, (hs', _)) => GOOD hs' end).
  Context (H_done : forall name hs cs files, OPEN hs cs -> GOOD (snd (c_complete O truthy name hs cs files))).
  Context (H_close : forall hs, GOOD hs -> GOOD (snd (c_close O hs))).
  Context (H_end : forall hs, GOOD hs -> FIN (snd (c_end O hs))).
  Context (H_fin : forall hs, GOOD hs -> FIN hs).

  Context {R : Type} (rd : nat -> R -> res str * R) (exh : R -> res unit * R).
  Context (reg : registry) (name2cp : str -> option N) (st : mset) (D : str) (fuel : nat).

  Definition sane (p : cst S F) : Prop := GOOD (c_hs p) /\ (c_old p <> [] -> OPEN (c_hs p) (c_counters p)).

  Lemma t_finish p : sane p -> match c_finish O truthy p with (Good _, p1) => sane p1 | (Bad _, p1) => GOOD (c_hs p1) end.
  Proof.
    intros [H1 H2]. unfold c_finish. destruct (c_old p) as [|x l] eqn:E; [split; [easy|now rewrite E]|].
    pose proof (H_done (x :: l) (c_hs p) (c_counters p) (c_files p) (H2 ltac:(easy))) as HX.
    destruct (c_complete O truthy (x :: l) (c_hs p) (c_counters p) (c_files p)) as [[f|e] hs]; cbn in *; [|easy].
    split; [easy|]. now intros H.
  Qed.
  Lemma t_file b64 : forall n hs cs s, OPEN hs cs ->
    match c_file_loop rd fuel O n b64 hs cs s with ((Good _, (hs', cs')), _) => OPEN hs' cs' | ((Bad _, (hs', _)), _) => GOOD hs' end.
  Proof.
    induction n as [|n IH]; intros hs cs s H; cbn [c_file_loop]; [now apply (H_open hs cs)|].
    destruct (ls_next (bi_next (ci_next rd) fuel) s) as [[c| |e] s1]; [|easy|now apply (H_open hs cs)].
    match goal with |- context [let (_, _) := ?x in _] => destruct x as [[d|e] s2] end; [|now apply (H_open hs cs)].
    pose proof (H_feed d hs cs H) as HX. destruct (c_feed O d hs cs) as [[u|x] [hs' cs']]; [now apply IH|easy].
  Qed.
  Lemma t_deliver i len b64 p s : sane p ->
    match c_deliver rd fuel O i len b64 p s with ((Good _, p1), _) => sane p1 | ((Bad _, p1), _) => GOOD (c_hs p1) end.
  Proof.
    intros [H1 H2]. unfold c_deliver. cbv zeta.
    assert (HSk : forall hs cs s1, GOOD hs -> match (match c_close O hs with
         | (Bad x, hs1) => ((Bad x, mkC (c_core p) (c_files p) [] cs hs1), s1)
         | (Good _, hs1) => match ls_drain (bi_next (ci_next rd) fuel) fuel s1 with
                            | (Err e, s2) => ((Bad (CExn e), mkC (c_core p) (c_files p) [] cs hs1), s2)
                            | (Ok _, s2) => ((Good tt, mkC (c_core p) (c_files p) [] cs hs1), s2)
                            end
         end) with ((Good _, p1), _) => sane p1 | ((Bad _, p1), _) => GOOD (c_hs p1) end).
    { intros hs cs s1 H. apply H_close in H. destruct (c_close O hs) as [[u|x] hs1]; [|exact H].
      destruct (ls_drain (bi_next (ci_next rd) fuel) fuel s1) as [[u1|e] s2]; [|exact H]. split; [exact H|]. now intros HE. }
    pose proof (H_new i len (c_hs p) H1) as HN. destruct (c_new O i len (c_hs p)) as [[u|x] hs]; [|destruct x; first [exact HN | exact (HSk _ _ _ HN)]].
    pose proof (t_file b64 fuel hs (map (fun _ => 0) (c_hs p)) s HN) as HF.
    destruct (c_file_loop rd fuel O fuel b64 hs (map (fun _ => 0) (c_hs p)) s) as [[[u1|x] [hs1 cs1]] s1].
    - split; [now apply (H_open hs1 cs1)|]. intros _. exact HF.
    - destruct x; first [exact HF | exact (HSk _ _ _ HF)].
  Qed.
  Lemma t_part ty m p s : sane p ->
    match c_part rd reg name2cp st fuel O ty m p s with ((Good _, p1), _) => sane p1 | ((Bad _, p1), _) => GOOD (c_hs p1) end.
  Proof.
    intros HS. assert (HG : GOOD (c_hs p)) by apply HS.
    unfold c_part, c_read_file. destruct (dget CDISP m) as [[v disp]|]; [|easy].
    destruct (dget !"name" disp) as [raw|]; [|easy]. cbv zeta.
    destruct (to_native (pstrip raw)) as [name|e]; [|easy]. destruct ty; [easy| |].
    - destruct (match dget !"filename" disp with Some f => _ | None => _ end) as [[|x fn]|e]; [easy| |easy].
      destruct (match dget !"content-type" m with Some v0 => _ | None => _ end) as [ct extra]. now apply t_deliver.
    - destruct (read_field rd reg st fuel name _ m (c_core p) s) as [[core|e] s1]; [|easy]. exact HS.
  Qed.
  Lemma t_loop : forall n p s, sane p ->
    GOOD (c_hs (snd (fst (c_loop rd reg name2cp st D fuel O truthy n p s)))).
  Proof.
    induction n as [|n IH]; intros p s HS; [apply HS|]. cbn [c_loop].
    destruct (bi_init (ci_next rd) fuel s D) as [[b|e] s1]; [|destruct e; apply HS].
    destruct (parse_boundary_stream rd reg fuel (ls_init b None)) as [[[ty m]|e] s2]; [|apply HS].
    pose proof (t_finish p HS) as HF. destruct (c_finish O truthy p) as [[u|x] p1]; [|exact HF].
    pose proof (t_part ty m p1 s2 HF) as HP. destruct (c_part rd reg name2cp st fuel O ty m p1 s2) as [[[u1|x] p2] s3]; [|exact HP].
    now apply IH.
  Qed.
  Theorem throughout len csize hs r : GOOD hs ->
    FIN (snd (fst (c_parse rd exh reg name2cp st D fuel O truthy len csize hs r))).
  Proof.
    intros H. unfold c_parse. cbv zeta. destruct (Z.eqb len 0); [destruct (querydict reg (Some (ms_query st)) None true); now apply H_fin|].
    pose proof (H_raw len hs H) as HR. destruct (c_raw O len hs) as [[[x|]|x] hs1]; [now apply H_fin| |now apply H_fin].
    destruct (querydict reg (Some (ms_query st)) None true) as [qd|e]; [|now apply H_fin].
    assert (HS : sane (mkC core0 [] [] (map (fun _ => 0) hs1) hs1)) by (split; [exact HR|]; now intros HE).
    pose proof (t_loop fuel _ (ls_init (mkCI r csize) None) HS) as HL.
    assert (HRet : forall p hs2 (r1 : R), GOOD hs2 -> FIN (snd (fst (c_return (F := F) O p hs2 r1)))).
    { intros p hs2 r1 H2. unfold c_return. pose proof (H_end hs2 H2) as HE. now destruct (c_end O hs2) as [[u|x] hs3]. }
    destruct (c_loop rd reg name2cp st D fuel O truthy fuel (mkC core0 [] [] (map (fun _ => 0) hs1) hs1) (ls_init (mkCI r csize) None))
      as [[[u|x] p1] s]; cbn [fst snd] in HL.
    - destruct (exh (input_of r s)) as [[u1|e] r1]; [now apply HRet|now apply H_fin].
    - destruct x as [e| |reset|]; try (now apply H_fin).
      pose proof (H_close _ HL) as HC. destruct (c_close O (c_hs p1)) as [[u|x] hs2]; [|now apply H_fin].
      destruct reset; [now apply HRet|]. destruct (exh (input_of r s)) as [[u1|e] r1]; [now apply HRet|now apply H_fin].
  Qed.
End Throughout.

(** ** The first handler, and all handlers *)
Section Protocol.
  Context {S F X : Type} (O : ops S F X) (truthy : F -> bool).
  Notation L := (logged O).
  Notation H := (S * list event)%type.

  Definition good (h : H) : Prop := protocol (snd h) /\ ~ In EEnd (snd h).
  Definition opened (h : H) (c : nat) : Prop := good h /\ in_file (snd h) c.
  Definition fin (h : H) : Prop := protocol (snd h).

  Lemma good_snoc l e : e <> EEnd -> protocol l /\ ~ In EEnd l -> match e with EData _ n | EDone n => in_file l n | _ => True end ->
    protocol (l ++ [e]) /\ ~ In EEnd (l ++ [e]).
  Proof.
    intros HE [H1 H2] H3. split; [now apply protocol_snoc|]. intros H4. apply in_app_or in H4 as [H4|[H4|[]]]; easy.
  Qed.
  Lemma l_raw len h : snd (snd (o_raw L len h)) = snd h.
  Proof. cbn. now destruct (o_raw O len (fst h)) as [r s]. Qed.
  Lemma l_new i len h : good h -> opened (snd (o_new L i len h)) 0.
  Proof.
    intros H1. cbn. destruct (o_new O i len (fst h)) as [r s]. cbn. split; cbn; [now apply good_snoc|apply in_file_new].
  Qed.
  Lemma l_data d c h : opened h c -> opened (snd (o_data L d c h)) (c + length d).
  Proof.
    intros [H1 H2]. cbn. destruct (o_data O d c (fst h)) as [r s]. cbn. split; cbn; [now apply good_snoc|now apply in_file_data].
  Qed.
  Lemma l_done c h : opened h c -> good (snd (o_done L c h)).
  Proof. intros [H1 H2]. cbn. destruct (o_done O c (fst h)) as [r s]. cbn. unfold good. cbn. now apply good_snoc. Qed.
  Lemma l_close h : good h -> good (snd (o_close L h)).
  Proof. intros H1. cbn. destruct (o_close O (fst h)) as [r s]. cbn. unfold good. cbn. now apply good_snoc. Qed.
  Lemma l_end h : good h -> fin (snd (o_end L h)).
  Proof. intros [H1 H2]. cbn. destruct (o_end O (fst h)) as [r s]. cbn. unfold fin. cbn. now apply protocol_snoc. Qed.

  Context {R : Type} (rd : nat -> R -> res str * R) (exh : R -> res unit * R).
  Context (reg : registry) (name2cp : str -> option N) (st : mset) (D : str) (fuel : nat).

  Definition good1 (hs : list H) : Prop := match hs with h :: _ => good h | [] => True end.
  Definition fin1 (hs : list H) : Prop := match hs with h :: _ => fin h | [] => True end.
  Definition open1 (hs : list H) (cs : list nat) : Prop :=
    match hs, cs with h :: _, c :: _ => opened h c | [], _ => True | _ :: _, [] => False end.
  Theorem first_protocol len csize hs r : good1 hs ->
    fin1 (snd (fst (c_parse rd exh reg name2cp st D fuel L truthy len csize hs r))).
  Proof.
    apply (throughout L truthy good1 fin1 open1).
    - intros [|h hs'] [|c cs]; cbn; try easy. now intros [H1 _].
    - intros len' [|h hs'] HG; [easy|]. cbn [c_raw]. pose proof (l_raw len' h) as E. unfold good1, good in *.
      rewrite <- E in HG. clear E. destruct (o_raw L len' h) as [[[x|]|x] h1]; [exact HG| |exact HG].
      destruct (c_raw L len' hs') as [r1 hs1]. exact HG.
    - intros i len' [|h hs'] HG; [exact I|]. cbn [c_new]. pose proof (l_new i len' h HG) as E.
      destruct (o_new L i len' h) as [[u|x] h1]; cbn [snd] in E.
      + destruct (c_new L i len' hs') as [[u1|x] hs1]; [exact E|apply E].
      + destruct x; first [exact (proj1 E) | exact E].
    - intros d [|h hs'] [|c cs] HG; cbn [c_feed]; try easy. pose proof (l_data d c h HG) as E.
      destruct (o_data L d c h) as [[[d1|]|x] h1]; cbn [snd] in E.
      + destruct (c_feed L d1 hs' cs) as [[u1|x] [hs1 cs1]]; [exact E|apply E].
      + exact E.
      + apply E.
    - intros name [|h hs'] [|c cs] files HG; cbn [c_complete]; try easy. pose proof (l_done c h HG) as E.
      destruct (o_done L c h) as [[o|x] h1]; cbn [snd] in E; [|exact E].
      destruct (match o with Some f => truthy f | None => false end); [exact E|].
      destruct (c_complete L truthy name hs' cs files) as [r1 hs1]. exact E.
    - intros [|h hs'] HG; [easy|]. cbn [c_close]. pose proof (l_close h HG) as E.
      destruct (o_close L h) as [[u|x] h1]; [|exact E]. destruct (c_close L hs') as [r1 hs1]. exact E.
    - intros [|h hs'] HG; [easy|]. cbn [c_end]. apply l_end in HG.
      destruct (o_end L h) as [[[|]|x] h1]; [exact HG| |exact HG]. destruct (c_end L hs') as [r1 hs1]. exact HG.
    - intros [|h hs'] HG; [easy|]. apply HG.
  Qed.

  Context (Hfut : forall i len s, fst (o_new O i len s) <> Bad CFuture).
  Lemma no_future i len h : fst (o_new L i len h) <> Bad CFuture.
  Proof. cbn. pose proof (Hfut i len (fst h)) as HX. now destruct (o_new O i len (fst h)) as [r s]. Qed.
  Lemma open_good hs cs : Forall2 opened hs cs -> Forall good hs.
  Proof. induction 1 as [|h c hs cs [H1 _] _ IH]; constructor; easy. Qed.
  Theorem all_protocol len csize hs r : Forall good hs ->
    Forall fin (snd (fst (c_parse rd exh reg name2cp st D fuel L truthy len csize hs r))).
  Proof.
    apply (throughout L truthy (Forall good) (Forall fin) (Forall2 opened)).
    - exact open_good.
    - intros len' hs'. induction hs' as [|h hs' IH]; intros HG; [constructor|]. inversion_clear HG as [|? ? H1 H2].
      cbn [c_raw]. pose proof (l_raw len' h) as E.
      assert (HX : good (snd (o_raw L len' h))) by (unfold good; rewrite E; exact H1).
      destruct (o_raw L len' h) as [[[x|]|x] h1]; cbn [fst snd] in *; try (constructor; easy).
      specialize (IH H2). destruct (c_raw L len' hs') as [r1 hs1]. constructor; easy.
    - intros i len' hs'. induction hs' as [|h hs' IH]; intros HG; [constructor|]. inversion_clear HG as [|? ? H1 H2].
      cbn [c_new map]. pose proof (l_new i len' h H1) as E. pose proof (no_future i len' h) as HN.
      destruct (o_new L i len' h) as [[u|x] h1]; cbn [fst snd] in *.
      + specialize (IH H2). destruct (c_new L i len' hs') as [[u1|x] hs1]; constructor; try easy. apply E.
      + destruct x; first [constructor; [exact (proj1 E)|exact H2] | easy].
    - intros d hs' cs HG. revert d. induction HG as [|h c hs' cs H1 H2 IH]; intros d; cbn [c_feed]; [constructor|].
      pose proof (l_data d c h H1) as E. pose proof (open_good _ _ H2) as HG2.
      destruct (o_data L d c h) as [[[d1|]|x] h1]; cbn [snd] in E.
      + specialize (IH d1). destruct (c_feed L d1 hs' cs) as [[u1|x] [hs1 cs1]]; cbn; constructor; try easy. apply E.
      + constructor; easy.
      + constructor; [apply E|easy].
    - intros name hs' cs files HG. induction HG as [|h c hs' cs H1 H2 IH]; cbn [c_complete]; [constructor|].
      pose proof (l_done c h H1) as E. pose proof (open_good _ _ H2) as HG2.
      destruct (o_done L c h) as [[o|x] h1]; cbn [snd] in E; [|constructor; easy].
      destruct (match o with Some f => truthy f | None => false end); [constructor; easy|].
      destruct (c_complete L truthy name hs' cs files) as [r1 hs1]. constructor; easy.
    - intros hs'. induction hs' as [|h hs' IH]; intros HG; [constructor|]. inversion_clear HG as [|? ? H1 H2].
      cbn [c_close]. pose proof (l_close h H1) as E.
      destruct (o_close L h) as [[u|x] h1]; [|constructor; easy]. specialize (IH H2). destruct (c_close L hs') as [r1 hs1]. constructor; easy.
    - intros hs'. induction hs' as [|h hs' IH]; intros HG; [constructor|]. inversion_clear HG as [|? ? H1 H2].
      cbn [c_end]. apply l_end in H1.
      assert (HG2 : Forall fin hs') by (apply Forall_impl with (2 := H2); now intros x []).
      destruct (o_end L h) as [[[|]|x] h1]; [constructor; easy| |constructor; easy].
      specialize (IH H2). destruct (c_end L hs') as [r1 hs1]. constructor; easy.
    - intros hs' HG. apply Forall_impl with (2 := HG). now intros x [].
  Qed.
End Protocol.

(** ** The content the first handler gets *)
Lemma data_of_app l i len evs : data_of (l ++ ENew i len :: evs) = data_of l.
Proof. induction l as [|[] l IH]; cbn; congruence. Qed.
Lemma data_of_snoc l n : data_of (l ++ [EDone n]) = data_of l.
Proof. induction l as [|[] l IH]; cbn; congruence. Qed.
Lemma received_new l i len evs : Forall is_data evs ->
  received (l ++ ENew i len :: evs) = received l ++ [(fi_field i, fi_name i, data_of evs)].
Proof.
  intros HF. induction l as [|[] l IH]; cbn; try congruence.
  - assert (HR : received evs = []) by (induction HF as [|[] evs He HF IH]; cbn in *; easy). now rewrite HR.
  - now rewrite data_of_app, IH.
Qed.
Lemma data_of_end l : data_of (l ++ [EEnd]) = data_of l.
Proof. induction l as [|[] l IH]; cbn; congruence. Qed.
Lemma received_end l : received (l ++ [EEnd]) = received l.
Proof. induction l as [|[] l IH]; cbn; rewrite ?data_of_end; congruence. Qed.
Lemma received_done l n : received (l ++ [EDone n]) = received l.
Proof. induction l as [|[] l IH]; cbn; rewrite ?data_of_snoc; congruence. Qed.

Section Content.
  Context (reg : registry) (st : mset).
  Context {S F X : Type} (O : ops S F X) (truthy : F -> bool).
  Notation L := (logged O).
  (** no method raises SkipFile or StopUpload *)
  Definition goes_on : Prop :=
    (forall i len s, match fst (o_new O i len s) with Bad CSkip | Bad (CStop _) => False | _ => True end) /\
    (forall d n s, match fst (o_data O d n s) with Bad CSkip | Bad (CStop _) => False | _ => True end) /\
    (forall n s, match fst (o_done O n s) with Bad CSkip | Bad (CStop _) => False | _ => True end).
  Context (HO : goes_on).
  Definition wont {A} (r : cr A) : Prop := match r with Bad CSkip | Bad (CStop _) => False | _ => True end.

  Lemma w_new i len : forall hs, wont (fst (c_new L i len hs)).
  Proof.
    induction hs as [|h hs IH]; [exact I|]. cbn. destruct HO as (H & _). specialize (H i len (fst h)).
    destruct (o_new O i len (fst h)) as [[u|x] s]; cbn in *.
    - now destruct (c_new L i len hs) as [r hs1].
    - now destruct x.
  Qed.
  Lemma w_feed : forall hs cs d, wont (fst (c_feed L d hs cs)).
  Proof.
    induction hs as [|h hs IH]; intros [|c cs] d; try exact I. cbn. destruct HO as (_ & H & _). specialize (H d c (fst h)).
    destruct (o_data O d c (fst h)) as [[[d1|]|x] s]; cbn in *; [|easy|now destruct x].
    specialize (IH cs d1). now destruct (c_feed L d1 hs cs) as [r hc].
  Qed.
  Lemma w_feed_all : forall ds hs cs, wont (fst (c_feed_all L ds hs cs)).
  Proof.
    induction ds as [|d ds IH]; intros hs cs; [exact I|]. cbn. pose proof (w_feed hs cs d) as HW.
    destruct (c_feed L d hs cs) as [[u|x] hc]; cbn in *; [apply IH|exact HW].
  Qed.
  Lemma w_complete name files : forall hs cs, wont (fst (c_complete L truthy name hs cs files)).
  Proof.
    induction hs as [|h hs IH]; intros [|c cs]; try exact I. cbn. destruct HO as (_ & _ & H). specialize (H c (fst h)).
    destruct (o_done O c (fst h)) as [[o|x] s]; cbn in *; [|now destruct x].
    destruct (match o with Some f => truthy f | None => false end); [exact I|].
    specialize (IH cs). now destruct (c_complete L truthy name hs cs files) as [r hc].
  Qed.

  Definition first_got (hs : list (S * list event)) (l : list (str * str * str)) : Prop :=
    exists h hs', hs = h :: hs' /\ received (snd h) = l.
  Lemma new_log i len h hs : match c_new L i len (h :: hs) with
    | (Good _, hs1) => exists s hs', hs1 = (s, snd h ++ [ENew i len]) :: hs' | _ => True end.
  Proof.
    cbn. destruct (o_new O i len (fst h)) as [[u|x] s]; cbn.
    - destruct (c_new L i len hs) as [[v|y] hs1]; [|exact I]. now eexists _, _.
    - destruct x; try exact I. now eexists _, _.
  Qed.
  Lemma feed_log d h hs c cs : match c_feed L d (h :: hs) (c :: cs) with
    | (Good _, (hs1, cs1)) => exists s hs' cs', hs1 = (s, snd h ++ [EData d c]) :: hs' /\ cs1 = (c + length d) :: cs' | _ => True end.
  Proof.
    cbn. destruct (o_data O d c (fst h)) as [[[d1|]|x] s]; cbn; [|now eexists _, _, _|exact I].
    destruct (c_feed L d1 hs cs) as [[v|y] [hs1 cs1]]; [|exact I]. now eexists _, _, _.
  Qed.
  Lemma feed_all_log : forall ds h hs c cs, match c_feed_all L ds (h :: hs) (c :: cs) with
    | (Good _, (hs1, cs1)) => exists s hs' evs, hs1 = (s, snd h ++ evs) :: hs' /\ Forall is_data evs /\ data_of evs = concat ds
    | _ => True end.
  Proof.
    induction ds as [|d ds IH]; intros h hs c cs; cbn [c_feed_all].
    - exists (fst h), hs, []. rewrite app_nil_r. now destruct h.
    - pose proof (feed_log d h hs c cs) as HF. destruct (c_feed L d (h :: hs) (c :: cs)) as [[u|x] [hs1 cs1]]; [|exact I].
      destruct HF as (s & hs' & cs' & -> & ->). cbn [fst snd]. specialize (IH (s, snd h ++ [EData d c]) hs' (c + length d) cs').
      destruct (c_feed_all L ds ((s, snd h ++ [EData d c]) :: hs') ((c + length d) :: cs')) as [[u1|x] [hs1 cs1]]; [|exact I].
      destruct IH as (s1 & hs2 & evs & -> & HE & HD). exists s1, hs2, (EData d c :: evs). cbn [snd]. rewrite <- app_assoc.
      split; [easy|]. split; [now constructor|]. cbn. now rewrite HD.
  Qed.
  Lemma finish_log p l : first_got (c_hs p) l -> match c_finish L truthy p with
    | (Good _, p1) => first_got (c_hs p1) l | (Bad x, _) => wont (@Bad unit x) end.
  Proof.
    intros (h & hs' & Hh & Hl). unfold c_finish. destruct (c_old p) as [|y name]; [now exists h, hs'|].
    pose proof (w_complete (y :: name) (c_files p) (c_hs p) (c_counters p)) as HW. rewrite Hh in *.
    destruct (c_counters p) as [|c cs]; [cbn; now exists h, hs'|].
    cbn in *. destruct (o_done O c (fst h)) as [[o|x] s]; cbn in *; [|exact HW].
    destruct (match o with Some f => truthy f | None => false end).
    - cbn. eexists _, _. split; [reflexivity|]. cbn. now rewrite received_done.
    - destruct (c_complete L truthy (y :: name) hs' cs (c_files p)) as [[f|x] hs1]; cbn in *; [|exact HW].
      eexists _, _. split; [reflexivity|]. cbn. now rewrite received_done.
  Qed.

  Definition item_got (it : item) : list (str * str * str) :=
    match it with KFile i w => [(fi_field i, fi_name i, w)] | _ => [] end.
  Theorem content_run its p o : grun reg st L truthy its p o -> forall l, first_got (c_hs p) l ->
    match fst o with
    | Good _ => first_got (c_hs (snd o)) (l ++ flat_map item_got its)
    | Bad x => wont (@Bad unit x)
    end.
  Proof.
    assert (HI : forall it p o l, gitem reg st L truthy it p o -> first_got (c_hs p) l ->
      match o with GDone p' | GSkip p' => first_got (c_hs p') (l ++ item_got it) | GBad x _ => wont (@Bad unit x) end).
    { intros it p0 o0 l [(e & -> & ->)|HG] HF; [exact I|].
      pose proof (finish_log p0 l HF) as H1. destruct (c_finish L truthy p0) as [[u|x] p1]; [|now subst o0].
      destruct it as [e| |name tenc h payload|i w]; cbn [item_got]; rewrite ?app_nil_r.
      - now subst o0.
      - now subst o0.
      - subst o0. now destruct (field_step reg st name tenc h (c_core p1) payload).
      - destruct HG as (len & ds & <- & ->). unfold g_pieces. destruct H1 as (h & hs' & Hh & Hl). rewrite Hh.
        pose proof (w_new i len (h :: hs')) as HW. pose proof (new_log i len h hs') as HL.
        destruct (c_new L i len (h :: hs')) as [[u1|x] hs1]; cbn [fst] in HW; [|now destruct x].
        destruct HL as (s & hs2 & ->). cbn [map].
        pose proof (w_feed_all ds ((s, snd h ++ [ENew i len]) :: hs2) (0 :: map (fun _ => 0) hs')) as HW2.
        pose proof (feed_all_log ds (s, snd h ++ [ENew i len]) hs2 0 (map (fun _ => 0) hs')) as HL2.
        destruct (c_feed_all L ds ((s, snd h ++ [ENew i len]) :: hs2) (0 :: map (fun _ => 0) hs')) as [[u2|x] [hs3 cs3]]; cbn [fst] in HW2.
        + destruct HL2 as (s1 & hs4 & evs & -> & HE & HD). cbn. eexists _, _. split; [reflexivity|]. cbn.
          rewrite <- app_assoc. cbn [app]. rewrite received_new; [|easy]. now rewrite Hl, HD.
        + now destruct x. }
    induction 1 as [p|it its p x p' HG|it its p p' o HG HR IH]; intros l Hl; cbn [fst snd flat_map].
    - now rewrite app_nil_r.
    - apply (HI it p _ l HG Hl).
    - rewrite app_assoc. apply IH. destruct HG as [HG|HG]; apply (HI it p _ l HG Hl).
  Qed.
End Content.
