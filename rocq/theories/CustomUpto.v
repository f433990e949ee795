(** * Handlers that do what others do, or fail: a simulation theorem for [c_parse] *)
From Verif Require Import Py PyFacts PyDict StreamModel CodecModel QueryModel Base64Model HeaderModel
  BoundaryModel UploadModel MultipartModel CustomModel.

Section Upto.
  Context {S1 S2 F X : Type} (O1 : ops S1 F X) (O2 : ops S2 F X) (truthy : F -> bool).
  Context (RS : S1 -> S2 -> Prop) (P : exn -> Prop).
  (** the first raises an exception in [P], or both do the same *)
  Definition upto {A} (a : cr A * S1) (b : cr A * S2) : Prop :=
    (exists e, fst a = Bad (CExn e) /\ P e) \/ (fst a = fst b /\ RS (snd a) (snd b)).
  Record failing : Prop := {
    up_raw : forall len x y, RS x y -> upto (o_raw O1 len x) (o_raw O2 len y);
    up_new : forall i len x y, RS x y -> upto (o_new O1 i len x) (o_new O2 i len y);
    up_data : forall d n x y, RS x y -> upto (o_data O1 d n x) (o_data O2 d n y);
    up_done : forall n x y, RS x y -> upto (o_done O1 n x) (o_done O2 n y);
    up_close : forall x y, RS x y -> upto (o_close O1 x) (o_close O2 y);
    up_end : forall x y, RS x y -> upto (o_end O1 x) (o_end O2 y) }.
  Context (UP : failing).
  Notation RL := (Forall2 RS).
  (** the same with lists of handlers *)
  Definition upl {A B1 B2} (RB : B1 -> B2 -> Prop) (a : cr A * B1) (b : cr A * B2) : Prop :=
    (exists e, fst a = Bad (CExn e) /\ P e) \/ (fst a = fst b /\ RB (snd a) (snd b)).
  Ltac fails e H := left; exists e; split; [reflexivity|exact H].

  Lemma upl_raw len : forall hs1 hs2, RL hs1 hs2 -> upl RL (c_raw O1 len hs1) (c_raw O2 len hs2).
  Proof.
    induction 1 as [|x y hs1 hs2 H HL IH]; [right; split; [reflexivity|constructor]|]. cbn [c_raw].
    destruct (up_raw UP len x y H) as [(e & E & He)|[E HR]].
    - destruct (o_raw O1 len x) as [r x1]. cbn [fst] in E. subst r. fails e He.
    - destruct (o_raw O1 len x) as [r x1], (o_raw O2 len y) as [r2 y1]. cbn [fst snd] in E, HR. subst r2.
      destruct r as [[z|]|z]; [right; split; [reflexivity|now constructor]| |right; split; [reflexivity|now constructor]].
      destruct IH as [(e & E & He)|[E HR2]].
      + destruct (c_raw O1 len hs1) as [r k1]. cbn [fst] in E. subst r. destruct (c_raw O2 len hs2). fails e He.
      + destruct (c_raw O1 len hs1) as [r k1], (c_raw O2 len hs2) as [r2 k2]. cbn [fst snd] in E, HR2. subst r2. right. split; [reflexivity|now constructor].
  Qed.
  Lemma upl_complete name files : forall hs1 hs2 cs, RL hs1 hs2 -> upl RL (c_complete O1 truthy name hs1 cs files) (c_complete O2 truthy name hs2 cs files).
  Proof.
    intros hs1 hs2 cs HL. revert cs. induction HL as [|x y hs1 hs2 H HL IH]; intros cs; [right; split; [reflexivity|constructor]|].
    destruct cs as [|c cs]; [right; split; [reflexivity|now constructor]|]. cbn [c_complete].
    destruct (up_done UP c x y H) as [(e & E & He)|[E HR]].
    - destruct (o_done O1 c x) as [r x1]. cbn [fst] in E. subst r. fails e He.
    - destruct (o_done O1 c x) as [r x1], (o_done O2 c y) as [r2 y1]. cbn [fst snd] in E, HR. subst r2.
      destruct r as [o|z]; [|right; split; [reflexivity|now constructor]].
      destruct (match o with Some f => truthy f | None => false end); [right; split; [reflexivity|now constructor]|].
      destruct (IH cs) as [(e & E & He)|[E HR2]].
      + destruct (c_complete O1 truthy name hs1 cs files) as [r k1]. cbn [fst] in E. subst r.
        destruct (c_complete O2 truthy name hs2 cs files). fails e He.
      + destruct (c_complete O1 truthy name hs1 cs files) as [r k1], (c_complete O2 truthy name hs2 cs files) as [r2 k2].
        cbn [fst snd] in E, HR2. subst r2. right. split; [reflexivity|now constructor].
  Qed.
  Lemma upl_new i len : forall hs1 hs2, RL hs1 hs2 -> upl RL (c_new O1 i len hs1) (c_new O2 i len hs2).
  Proof.
    induction 1 as [|x y hs1 hs2 H HL IH]; [right; split; [reflexivity|constructor]|]. cbn [c_new].
    destruct (up_new UP i len x y H) as [(e & E & He)|[E HR]].
    - destruct (o_new O1 i len x) as [r x1]. cbn [fst] in E. subst r. fails e He.
    - destruct (o_new O1 i len x) as [r x1], (o_new O2 i len y) as [r2 y1]. cbn [fst snd] in E, HR. subst r2.
      destruct r as [u|z]; [|destruct z; (right; split; [reflexivity|now constructor])].
      destruct IH as [(e & E & He)|[E HR2]].
      + destruct (c_new O1 i len hs1) as [r k1]. cbn [fst] in E. subst r. destruct (c_new O2 i len hs2). fails e He.
      + destruct (c_new O1 i len hs1) as [r k1], (c_new O2 i len hs2) as [r2 k2]. cbn [fst snd] in E, HR2. subst r2. right. split; [reflexivity|now constructor].
  Qed.
  Definition RC (a : list S1 * list nat) (b : list S2 * list nat) : Prop := RL (fst a) (fst b) /\ snd a = snd b.
  Lemma upl_feed : forall hs1 hs2 d cs, RL hs1 hs2 -> upl RC (c_feed O1 d hs1 cs) (c_feed O2 d hs2 cs).
  Proof.
    intros hs1 hs2 d cs HL. revert d cs. induction HL as [|x y hs1 hs2 H HL IH]; intros d cs; [right; split; [reflexivity|split; [constructor|reflexivity]]|].
    destruct cs as [|c cs]; [right; split; [reflexivity|split; [now constructor|reflexivity]]|]. cbn [c_feed].
    destruct (up_data UP d c x y H) as [(e & E & He)|[E HR]].
    - destruct (o_data O1 d c x) as [r x1]. cbn [fst] in E. subst r. fails e He.
    - destruct (o_data O1 d c x) as [r x1], (o_data O2 d c y) as [r2 y1]. cbn [fst snd] in E, HR. subst r2.
      destruct r as [[d1|]|z]; [|right; split; [reflexivity|split; [now constructor|reflexivity]]
                                |right; split; [reflexivity|split; [now constructor|reflexivity]]].
      destruct (IH d1 cs) as [(e & E & He)|[E [HR2 HR3]]].
      + destruct (c_feed O1 d1 hs1 cs) as [r k1]. cbn [fst] in E. subst r. destruct (c_feed O2 d1 hs2 cs). fails e He.
      + destruct (c_feed O1 d1 hs1 cs) as [r k1], (c_feed O2 d1 hs2 cs) as [r2 k2]. cbn [fst snd] in E, HR2, HR3. subst r2.
        right. split; [reflexivity|]. split; cbn [fst snd]; [now constructor|now rewrite HR3].
  Qed.
  Lemma upl_close : forall hs1 hs2, RL hs1 hs2 -> upl RL (c_close O1 hs1) (c_close O2 hs2).
  Proof.
    induction 1 as [|x y hs1 hs2 H HL IH]; [right; split; [reflexivity|constructor]|]. cbn [c_close].
    destruct (up_close UP x y H) as [(e & E & He)|[E HR]].
    - destruct (o_close O1 x) as [r x1]. cbn [fst] in E. subst r. fails e He.
    - destruct (o_close O1 x) as [r x1], (o_close O2 y) as [r2 y1]. cbn [fst snd] in E, HR. subst r2.
      destruct r as [u|z]; [|right; split; [reflexivity|now constructor]].
      destruct IH as [(e & E & He)|[E HR2]].
      + destruct (c_close O1 hs1) as [r k1]. cbn [fst] in E. subst r. destruct (c_close O2 hs2). fails e He.
      + destruct (c_close O1 hs1) as [r k1], (c_close O2 hs2) as [r2 k2]. cbn [fst snd] in E, HR2. subst r2. right. split; [reflexivity|now constructor].
  Qed.
  Lemma upl_end : forall hs1 hs2, RL hs1 hs2 -> upl RL (c_end O1 hs1) (c_end O2 hs2).
  Proof.
    induction 1 as [|x y hs1 hs2 H HL IH]; [right; split; [reflexivity|constructor]|]. cbn [c_end].
    destruct (up_end UP x y H) as [(e & E & He)|[E HR]].
    - destruct (o_end O1 x) as [r x1]. cbn [fst] in E. subst r. fails e He.
    - destruct (o_end O1 x) as [r x1], (o_end O2 y) as [r2 y1]. cbn [fst snd] in E, HR. subst r2.
      destruct r as [[]|z]; [right; split; [reflexivity|now constructor]| |right; split; [reflexivity|now constructor]].
      destruct IH as [(e & E & He)|[E HR2]].
      + destruct (c_end O1 hs1) as [r k1]. cbn [fst] in E. subst r. destruct (c_end O2 hs2). fails e He.
      + destruct (c_end O1 hs1) as [r k1], (c_end O2 hs2) as [r2 k2]. cbn [fst snd] in E, HR2. subst r2. right. split; [reflexivity|now constructor].
  Qed.

  Context {R : Type} (rd : nat -> R -> res str * R) (exh : R -> res unit * R).
  Context (reg : registry) (name2cp : str -> option N) (st : mset) (D : str) (fuel : nat).
  Notation pn2 := (bi_next (ci_next rd) fuel).

  Definition RP (p : cst S1 F) (q : cst S2 F) : Prop :=
    c_core p = c_core q /\ c_files p = c_files q /\ c_old p = c_old q /\ c_counters p = c_counters q /\ RL (c_hs p) (c_hs q).
  (** also with what is left of a stream *)
  Definition ups {B1 B2 T} (RB : B1 -> B2 -> Prop) (a : (cr unit * B1) * T) (b : (cr unit * B2) * T) : Prop :=
    (exists e, fst (fst a) = Bad (CExn e) /\ P e) \/ (fst (fst a) = fst (fst b) /\ RB (snd (fst a)) (snd (fst b)) /\ snd a = snd b).
  Lemma upl_finish p q : RP p q -> upl RP (c_finish O1 truthy p) (c_finish O2 truthy q).
  Proof.
    intros HP. pose proof HP as (H1 & H2 & H3 & H4 & H5). unfold c_finish. rewrite <- H3. destruct (c_old p) as [|x l] eqn:Eo; [right; now split|].
    rewrite <- H2, <- H4. destruct (upl_complete (x :: l) (c_files p) _ _ (c_counters p) H5) as [(e & E & He)|[E HR]].
    - destruct (c_complete O1 truthy _ (c_hs p) (c_counters p) (c_files p)) as [r k1]. cbn [fst] in E. subst r. fails e He.
    - destruct (c_complete O1 truthy _ (c_hs p) (c_counters p) (c_files p)) as [r k1], (c_complete O2 truthy _ (c_hs q) (c_counters p) (c_files p)) as [r2 k2].
      cbn [fst snd] in E, HR. subst r2. right. destruct r; (split; [reflexivity|]); repeat split; try assumption; cbn; congruence.
  Qed.
  Lemma ups_file_loop b64 : forall n hs1 hs2 cs s, RL hs1 hs2 ->
    ups RC (c_file_loop rd fuel O1 n b64 hs1 cs s) (c_file_loop rd fuel O2 n b64 hs2 cs s).
  Proof.
    induction n as [|n IH]; intros hs1 hs2 cs s H; [right; now repeat split|]. cbn [c_file_loop].
    destruct (ls_next pn2 s) as [[c| |e] s1]; [|right; now repeat split|right; now repeat split].
    destruct (if b64 then _ else _) as [[d|e] s2]; [|right; now repeat split].
    destruct (upl_feed hs1 hs2 d cs H) as [(e & E & He)|[E [HR1 HR2]]].
    - destruct (c_feed O1 d hs1 cs) as [r k1]. cbn [fst] in E. subst r. fails e He.
    - destruct (c_feed O1 d hs1 cs) as [r k1], (c_feed O2 d hs2 cs) as [r2 k2]. cbn [fst snd] in E, HR1, HR2. subst r2.
      destruct r; [|right; now repeat split]. rewrite <- HR2. now apply IH.
  Qed.
  Lemma zeros_same (hs1 : list S1) (hs2 : list S2) : RL hs1 hs2 -> map (fun _ => 0) hs1 = map (fun _ => 0) hs2.
  Proof. induction 1; cbn; congruence. Qed.
  Lemma ups_deliver i len b64 p q s : RP p q -> ups RP (c_deliver rd fuel O1 i len b64 p s) (c_deliver rd fuel O2 i len b64 q s).
  Proof.
    intros (H1 & H2 & H3 & H4 & H5). unfold c_deliver. cbv zeta. rewrite <- H1, <- H2, <- (zeros_same _ _ H5).
    set (cs0 := map (fun _ => 0) (c_hs p)). clearbody cs0.
    assert (HSk : forall k1 k2 cs s1, RL k1 k2 ->
      ups RP
       (match c_close O1 k1 with
         | (Bad z, hs1) => ((Bad z, mkC (c_core p) (c_files p) [] cs hs1), s1)
         | (Good _, hs1) => match ls_drain pn2 fuel s1 with
                            | (Err e, s2) => ((Bad (CExn e), mkC (c_core p) (c_files p) [] cs hs1), s2)
                            | (Ok _, s2) => ((Good tt, mkC (c_core p) (c_files p) [] cs hs1), s2)
                            end
         end)
       (match c_close O2 k2 with
         | (Bad z, hs1) => ((Bad z, mkC (c_core p) (c_files p) [] cs hs1), s1)
         | (Good _, hs1) => match ls_drain pn2 fuel s1 with
                            | (Err e, s2) => ((Bad (CExn e), mkC (c_core p) (c_files p) [] cs hs1), s2)
                            | (Ok _, s2) => ((Good tt, mkC (c_core p) (c_files p) [] cs hs1), s2)
                            end
         end)).
    { intros k1 k2 cs s1 HK. destruct (upl_close _ _ HK) as [(e & E & He)|[E HR]].
      - destruct (c_close O1 k1) as [r l1]. cbn [fst] in E. subst r. fails e He.
      - destruct (c_close O1 k1) as [r l1], (c_close O2 k2) as [r2 l2]. cbn [fst snd] in E, HR. subst r2.
        destruct r; [destruct (ls_drain pn2 fuel s1) as [[u|e] s2]|]; right; now repeat split. }
    destruct (upl_new i len _ _ H5) as [(e & E & He)|[E HR]].
    { destruct (c_new O1 i len (c_hs p)) as [r k1]. cbn [fst] in E. subst r. fails e He. }
    destruct (c_new O1 i len (c_hs p)) as [r k1], (c_new O2 i len (c_hs q)) as [r2 k2]. cbn [fst snd] in E, HR. subst r2.
    destruct r as [u|[e| |b|]]; try (right; now repeat split); [|now apply HSk].
    destruct (ups_file_loop b64 fuel k1 k2 cs0 s HR) as [(e & E & He)|(E & [HR1 HR2] & HR3)].
    { destruct (c_file_loop rd fuel O1 fuel b64 k1 cs0 s) as [[r [k3 cs3]] s3]. cbn [fst] in E. subst r. fails e He. }
    destruct (c_file_loop rd fuel O1 fuel b64 k1 cs0 s) as [[r [k3 cs3]] s3], (c_file_loop rd fuel O2 fuel b64 k2 cs0 s) as [[r2 [k4 cs4]] s4].
    cbn [fst snd] in *. subst r2 cs4 s4. destruct r as [u2|[e| |b|]]; try (right; now repeat split). now apply HSk.
  Qed.
  Lemma ups_part ty m p q s : RP p q -> ups RP (c_part rd reg name2cp st fuel O1 ty m p s) (c_part rd reg name2cp st fuel O2 ty m q s).
  Proof.
    intros HP. unfold c_part, c_read_file. assert (HS : forall r (s1 : lstream (biter (chunkiter R))), ups RP ((r, p), s1) ((r, q), s1)).
    { intros r s1. right. split; [reflexivity|]. split; [exact HP|reflexivity]. }
    destruct (dget CDISP m) as [[v disp]|]; [|apply HS]. destruct (dget !"name" disp) as [raw|]; [|apply HS]. cbv zeta.
    destruct (to_native (pstrip raw)) as [name|e]; [|apply HS]. destruct ty; [apply HS| |].
    - destruct (match dget !"filename" disp with Some f => _ | None => _ end) as [[|x fn]|e]; [apply HS| |apply HS].
      destruct (match dget !"content-type" m with Some v0 => _ | None => _ end) as [ct extra]. now apply ups_deliver.
    - destruct HP as (H1 & H2 & H3 & H4 & H5). rewrite <- H1.
      destruct (read_field rd reg st fuel name _ m (c_core p) s) as [[core|e] s1]; [right; now repeat split|apply HS].
  Qed.
  Lemma ups_loop : forall n p q s, RP p q ->
    ups RP (c_loop rd reg name2cp st D fuel O1 truthy n p s) (c_loop rd reg name2cp st D fuel O2 truthy n q s).
  Proof.
    induction n as [|n IH]; intros p q s HP; [right; split; [reflexivity|split; [exact HP|reflexivity]]|]. cbn [c_loop].
    assert (HS : forall r (s1 : lstream (chunkiter R)), ups RP ((r, p), s1) ((r, q), s1)).
    { intros r s1. right. split; [reflexivity|]. split; [exact HP|reflexivity]. }
    destruct (bi_init (ci_next rd) fuel s D) as [[b|e] s1]; [|destruct e; apply HS].
    destruct (parse_boundary_stream rd reg fuel (ls_init b None)) as [[[ty m]|e] s2]; [|apply HS].
    destruct (upl_finish p q HP) as [(e & E & He)|[E HR]].
    { destruct (c_finish O1 truthy p) as [r p1]. cbn [fst] in E. subst r. fails e He. }
    destruct (c_finish O1 truthy p) as [r p1], (c_finish O2 truthy q) as [r2 q1]. cbn [fst snd] in E, HR. subst r2.
    destruct r; [|right; split; [reflexivity|split; [exact HR|reflexivity]]].
    destruct (ups_part ty m p1 q1 s2 HR) as [(e & E & He)|(E & HR1 & HR2)].
    { destruct (c_part rd reg name2cp st fuel O1 ty m p1 s2) as [[r p2] s3]. cbn [fst] in E. subst r. fails e He. }
    destruct (c_part rd reg name2cp st fuel O1 ty m p1 s2) as [[r p2] s3], (c_part rd reg name2cp st fuel O2 ty m q1 s2) as [[r2 q2] s4].
    cbn [fst snd] in E, HR1, HR2. subst r2 s4. destruct r; [now apply IH|]. right. split; [reflexivity|split; [exact HR1|reflexivity]].
  Qed.
  Lemma upl_return p q hs1 hs2 (r : R) : RP p q -> RL hs1 hs2 ->
    let a := c_return O1 p hs1 r in let b := c_return O2 q hs2 r in
    (exists e, fst (fst a) = Bad (CExn e) /\ P e) \/ (fst (fst a) = fst (fst b) /\ RL (snd (fst a)) (snd (fst b)) /\ snd a = snd b).
  Proof.
    intros (H1 & H2 & _) HL. cbv zeta. unfold c_return. destruct (upl_end _ _ HL) as [(e & E & He)|[E HR]].
    { destruct (c_end O1 hs1) as [x k1]. cbn [fst] in E. subst x. fails e He. }
    destruct (c_end O1 hs1) as [x k1], (c_end O2 hs2) as [y k2]. cbn [fst snd] in E, HR. subst y. right. rewrite H1, H2. now destruct x.
  Qed.
  Theorem upto_parse len csize hs1 hs2 r : RL hs1 hs2 ->
    let a := c_parse rd exh reg name2cp st D fuel O1 truthy len csize hs1 r in
    let b := c_parse rd exh reg name2cp st D fuel O2 truthy len csize hs2 r in
    (exists e, fst (fst a) = Bad (CExn e) /\ P e) \/ (fst (fst a) = fst (fst b) /\ RL (snd (fst a)) (snd (fst b)) /\ snd a = snd b).
  Proof.
    intros HL. cbv zeta. unfold c_parse. cbv zeta. destruct (Z.eqb len 0).
    { destruct (querydict reg _ None true); right; now repeat split. }
    destruct (upl_raw len _ _ HL) as [(e & E & He)|[E HR]].
    { destruct (c_raw O1 len hs1) as [x k1]. cbn [fst] in E. subst x. fails e He. }
    destruct (c_raw O1 len hs1) as [x k1], (c_raw O2 len hs2) as [y k2]. cbn [fst snd] in E, HR. subst y.
    destruct x as [[x|]|x]; [right; now repeat split| |right; now repeat split].
    destruct (querydict reg (Some (ms_query st)) None true) as [qd|e]; [|right; now repeat split].
    rewrite <- (zeros_same _ _ HR).
    destruct (ups_loop fuel (mkC core0 [] [] (map (fun _ => 0) k1) k1) (mkC core0 [] [] (map (fun _ => 0) k1) k2) (ls_init (mkCI r csize) None)) as [(e & E & He)|(E & HP & ES)].
    - now repeat split.
    - destruct (c_loop rd reg name2cp st D fuel O1 truthy fuel _ _) as [[x p1] s]. cbn [fst] in E. subst x. fails e He.
    - destruct (c_loop rd reg name2cp st D fuel O1 truthy fuel _ _) as [[x p1] s], (c_loop rd reg name2cp st D fuel O2 truthy fuel _ _) as [[y q1] s'].
      cbn [fst snd] in E, HP, ES. subst y s'. assert (HH : RL (c_hs p1) (c_hs q1)) by apply HP. destruct x as [u|[e| |reset|]].
      + destruct (exh (input_of r s)) as [[v|e] rr]; [|right; now repeat split]. now apply upl_return.
      + right; now repeat split.
      + right; now repeat split.
      + destruct (upl_close _ _ HH) as [(e & E & He)|[E HR2]].
        { destruct (c_close O1 (c_hs p1)) as [x l1]. cbn [fst] in E. subst x. fails e He. }
        destruct (c_close O1 (c_hs p1)) as [x l1], (c_close O2 (c_hs q1)) as [y l2]. cbn [fst snd] in E, HR2. subst y.
        destruct x as [v|x]; [|right; now repeat split]. destruct reset; [now apply upl_return|].
        destruct (exh (input_of r s)) as [[w|e] rr]; [|right; now repeat split]. now apply upl_return.
      + right; now repeat split.
  Qed.
End Upto.

(** ** What no method of a handler changes, the parser does not change *)
Section Keep.
  Context {S F X T : Type} (O : ops S F X) (truthy : F -> bool) (g : S -> T).
  Record keeping : Prop := {
    k_raw : forall len x, g (snd (o_raw O len x)) = g x;
    k_new : forall i len x, g (snd (o_new O i len x)) = g x;
    k_data : forall d n x, g (snd (o_data O d n x)) = g x;
    k_done : forall n x, g (snd (o_done O n x)) = g x;
    k_close : forall x, g (snd (o_close O x)) = g x;
    k_end : forall x, g (snd (o_end O x)) = g x }.
  Context (K : keeping).
  Lemma kl_raw len : forall hs, map g (snd (c_raw O len hs)) = map g hs.
  Proof.
    induction hs as [|h hs IH]; [reflexivity|]. cbn [c_raw]. pose proof (k_raw K len h) as H. destruct (o_raw O len h) as [[[x|]|x] h1]; cbn in *;
      [now rewrite H| |now rewrite H]. destruct (c_raw O len hs). cbn in *. now rewrite H, IH.
  Qed.
  Lemma kl_complete name files : forall hs cs, map g (snd (c_complete O truthy name hs cs files)) = map g hs.
  Proof.
    induction hs as [|h hs IH]; intros [|c cs]; try reflexivity. cbn [c_complete]. pose proof (k_done K c h) as H.
    destruct (o_done O c h) as [[o|x] h1]; cbn [snd map] in *; [|now rewrite H].
    destruct (match o with Some f => truthy f | None => false end); cbn [snd map]; [now rewrite H|].
    specialize (IH cs). destruct (c_complete O truthy name hs cs files). cbn in *. now rewrite H, IH.
  Qed.
  Lemma kl_new i len : forall hs, map g (snd (c_new O i len hs)) = map g hs.
  Proof.
    induction hs as [|h hs IH]; [reflexivity|]. cbn [c_new]. pose proof (k_new K i len h) as H. destruct (o_new O i len h) as [[x|x] h1]; cbn [snd] in H.
    - destruct (c_new O i len hs). cbn in *. now rewrite H, IH.
    - destruct x; cbn; now rewrite H.
  Qed.
  Lemma kl_feed : forall hs d cs, map g (fst (snd (c_feed O d hs cs))) = map g hs.
  Proof.
    induction hs as [|h hs IH]; intros d [|c cs]; try reflexivity. cbn [c_feed]. pose proof (k_data K d c h) as H.
    destruct (o_data O d c h) as [[[d1|]|x] h1]; cbn [snd fst map] in *; [|now rewrite H|now rewrite H].
    specialize (IH d1 cs). destruct (c_feed O d1 hs cs). cbn in *. now rewrite H, IH.
  Qed.
  Lemma kl_close : forall hs, map g (snd (c_close O hs)) = map g hs.
  Proof.
    induction hs as [|h hs IH]; [reflexivity|]. cbn [c_close]. pose proof (k_close K h) as H. destruct (o_close O h) as [[x|x] h1]; cbn [snd] in H.
    - destruct (c_close O hs). cbn in *. now rewrite H, IH.
    - cbn. now rewrite H.
  Qed.
  Lemma kl_end : forall hs, map g (snd (c_end O hs)) = map g hs.
  Proof.
    induction hs as [|h hs IH]; [reflexivity|]. cbn [c_end]. pose proof (k_end K h) as H. destruct (o_end O h) as [[[]|x] h1]; cbn [snd] in H.
    - cbn. now rewrite H.
    - destruct (c_end O hs). cbn in *. now rewrite H, IH.
    - cbn. now rewrite H.
  Qed.
  Context {R : Type} (rd : nat -> R -> res str * R) (exh : R -> res unit * R).
  Context (reg : registry) (name2cp : str -> option N) (st : mset) (D : str) (fuel : nat).
  Notation pn2 := (bi_next (ci_next rd) fuel).
  Lemma kl_finish p : map g (c_hs (snd (c_finish O truthy p))) = map g (c_hs p).
  Proof.
    unfold c_finish. destruct (c_old p) as [|x l]; [reflexivity|]. pose proof (kl_complete (x :: l) (c_files p) (c_hs p) (c_counters p)) as H.
    now destruct (c_complete O truthy (x :: l) (c_hs p) (c_counters p) (c_files p)) as [[f|y] hs].
  Qed.
  Lemma kl_file_loop b64 : forall n hs cs s, map g (fst (snd (fst (c_file_loop rd fuel O n b64 hs cs s)))) = map g hs.
  Proof.
    induction n as [|n IH]; intros hs cs s; [reflexivity|]. cbn [c_file_loop].
    destruct (ls_next pn2 s) as [[c| |e] s1]; [|reflexivity|reflexivity]. destruct (if b64 then _ else _) as [[d|e] s2]; [|reflexivity].
    pose proof (kl_feed hs d cs) as H. destruct (c_feed O d hs cs) as [[u|x] hc]; cbn [fst snd] in *; [|exact H]. now rewrite IH.
  Qed.
  Lemma kl_deliver i len b64 p s : map g (c_hs (snd (fst (c_deliver rd fuel O i len b64 p s)))) = map g (c_hs p).
  Proof.
    unfold c_deliver. cbv zeta. pose proof (kl_new i len (c_hs p)) as H. destruct (c_new O i len (c_hs p)) as [r hs]. cbn [snd] in H. rewrite <- H.
    assert (HSk : forall k cs s1, map g k = map g hs ->
      map g (c_hs (snd (fst (match c_close O k with
         | (Bad z, hs1) => ((Bad z, mkC (c_core p) (c_files p) [] cs hs1), s1)
         | (Good _, hs1) => match ls_drain pn2 fuel s1 with
                            | (Err e, s2) => ((Bad (CExn e), mkC (c_core p) (c_files p) [] cs hs1), s2)
                            | (Ok _, s2) => ((Good tt, mkC (c_core p) (c_files p) [] cs hs1), s2)
                            end
         end)))) = map g hs).
    { intros k cs s1 E. pose proof (kl_close k) as HC. destruct (c_close O k) as [[u|z] hs1]; cbn [snd] in HC; [|cbn; congruence].
      destruct (ls_drain pn2 fuel s1) as [[u2|e] s2]; cbn; congruence. }
    destruct r as [u|[e| |b|]]; try reflexivity; [|now apply HSk].
    pose proof (kl_file_loop b64 fuel hs (map (fun _ => 0) (c_hs p)) s) as HL.
    destruct (c_file_loop rd fuel O fuel b64 hs (map (fun _ => 0) (c_hs p)) s) as [[r [k cs]] s1]. cbn [fst snd] in HL.
    destruct r as [u2|[e| |b|]]; try exact HL. now apply HSk.
  Qed.
  Lemma kl_part ty m p s : map g (c_hs (snd (fst (c_part rd reg name2cp st fuel O ty m p s)))) = map g (c_hs p).
  Proof.
    unfold c_part, c_read_file. destruct (dget CDISP m) as [[v disp]|]; [|reflexivity]. destruct (dget !"name" disp) as [raw|]; [|reflexivity].
    cbv zeta. destruct (to_native (pstrip raw)) as [name|e]; [|reflexivity]. destruct ty; [reflexivity| |].
    - destruct (match dget !"filename" disp with Some f => _ | None => _ end) as [[|x fn]|e]; [reflexivity| |reflexivity].
      destruct (match dget !"content-type" m with Some v0 => _ | None => _ end) as [ct extra]. apply kl_deliver.
    - now destruct (read_field rd reg st fuel name _ m (c_core p) s) as [[core|e] s1].
  Qed.
  Lemma kl_loop : forall n p s, map g (c_hs (snd (fst (c_loop rd reg name2cp st D fuel O truthy n p s)))) = map g (c_hs p).
  Proof.
    induction n as [|n IH]; intros p s; [reflexivity|]. cbn [c_loop].
    destruct (bi_init (ci_next rd) fuel s D) as [[b|e] s1]; [|now destruct e].
    destruct (parse_boundary_stream rd reg fuel (ls_init b None)) as [[[ty m]|e] s2]; [|reflexivity].
    pose proof (kl_finish p) as H. destruct (c_finish O truthy p) as [[u|x] p1]; cbn [snd] in H; [|exact H].
    pose proof (kl_part ty m p1 s2) as H2. destruct (c_part rd reg name2cp st fuel O ty m p1 s2) as [[[v|x] p2] s3]; cbn [fst snd] in *; [|congruence].
    rewrite IH. congruence.
  Qed.
  Theorem keep_parse len csize hs r : map g (snd (fst (c_parse rd exh reg name2cp st D fuel O truthy len csize hs r))) = map g hs.
  Proof.
    assert (HR : forall p k (r0 : R), map g (snd (fst (c_return O p k r0))) = map g k).
    { intros p k r0. unfold c_return. pose proof (kl_end k) as H. now destruct (c_end O k) as [[u|x] k1]. }
    unfold c_parse. cbv zeta. destruct (Z.eqb len 0); [now destruct (querydict reg _ None true)|].
    pose proof (kl_raw len hs) as H. destruct (c_raw O len hs) as [[[x|]|x] k]; cbn [snd] in H; try exact H.
    destruct (querydict reg (Some (ms_query st)) None true) as [qd|e]; [|exact H].
    pose proof (kl_loop fuel (mkC core0 [] [] (map (fun _ => 0) k) k) (ls_init (mkCI r csize) None)) as HL.
    destruct (c_loop rd reg name2cp st D fuel O truthy fuel _ _) as [[x p1] s]. cbn [fst snd c_hs] in HL. rewrite H in HL.
    destruct x as [u|[e| |reset|]]; try exact HL.
    - destruct (exh (input_of r s)) as [[v|e] rr]; [|exact HL]. now rewrite HR.
    - pose proof (kl_close (c_hs p1)) as HC. destruct (c_close O (c_hs p1)) as [[v|x] k2]; cbn [snd] in HC; [|cbn; congruence].
      destruct reset; [rewrite HR; congruence|]. destruct (exh (input_of r s)) as [[w|e] rr]; [rewrite HR; congruence|cbn; congruence].
  Qed.
End Keep.

(** ** Handlers that never ask for a file to be skipped or the upload to be stopped: [_close_files] is not called *)
Section NoClose.
  Context {S F X : Type} (O : ops S F X) (truthy : F -> bool) (cl : S -> cr unit * S).
  Definition with_close : ops S F X := mkOps S F X (o_raw O) (o_new O) (o_data O) (o_done O) cl (o_end O).
  Definition asks {A} (r : cr A) : Prop := match r with Bad CSkip | Bad (CStop _) => True | _ => False end.
  Context (Hnew : forall i len x, ~ asks (fst (o_new O i len x))) (Hdata : forall d n x, ~ asks (fst (o_data O d n x)))
    (Hdone : forall n x, ~ asks (fst (o_done O n x))).
  Lemma nc_new i len : forall hs, ~ asks (fst (c_new O i len hs)).
  Proof.
    induction hs as [|h hs IH]; [easy|]. cbn [c_new]. pose proof (Hnew i len h) as H. destruct (o_new O i len h) as [[u|x] h1]; [now destruct (c_new O i len hs)|].
    destruct x; cbn in *; tauto.
  Qed.
  Lemma nc_feed : forall hs d cs, ~ asks (fst (c_feed O d hs cs)).
  Proof.
    induction hs as [|h hs IH]; intros d [|c cs]; try easy. cbn [c_feed]. pose proof (Hdata d c h) as H. destruct (o_data O d c h) as [[[d1|]|x] h1]; [|easy|easy].
    specialize (IH d1 cs). now destruct (c_feed O d1 hs cs).
  Qed.
  Lemma nc_complete name files : forall hs cs, ~ asks (fst (c_complete O truthy name hs cs files)).
  Proof.
    induction hs as [|h hs IH]; intros [|c cs]; try easy. cbn [c_complete]. pose proof (Hdone c h) as H. destruct (o_done O c h) as [[o|x] h1]; [|easy].
    destruct (match o with Some f => truthy f | None => false end); [easy|]. specialize (IH cs). now destruct (c_complete O truthy name hs cs files).
  Qed.
  Context {R : Type} (rd : nat -> R -> res str * R) (exh : R -> res unit * R).
  Context (reg : registry) (name2cp : str -> option N) (st : mset) (D : str) (fuel : nat).
  Lemma nc_file_loop b64 : forall n hs cs s, ~ asks (fst (fst (c_file_loop rd fuel O n b64 hs cs s))).
  Proof.
    induction n as [|n IH]; intros hs cs s; [easy|]. cbn [c_file_loop].
    destruct (ls_next _ s) as [[c| |e] s1]; [|easy|easy]. destruct (if b64 then _ else _) as [[d|e] s2]; [|easy].
    pose proof (nc_feed hs d cs) as H. destruct (c_feed O d hs cs) as [[u|x] hc]; [apply IH|exact H].
  Qed.
  Lemma nc_finish p : ~ asks (fst (c_finish O truthy p)).
  Proof.
    unfold c_finish. destruct (c_old p) as [|x l]; [easy|]. pose proof (nc_complete (x :: l) (c_files p) (c_hs p) (c_counters p)) as H.
    now destruct (c_complete O truthy (x :: l) (c_hs p) (c_counters p) (c_files p)) as [[f|y] hs].
  Qed.
  Lemma nc_deliver i len b64 p s :
    c_deliver rd fuel with_close i len b64 p s = c_deliver rd fuel O i len b64 p s /\ ~ asks (fst (fst (c_deliver rd fuel O i len b64 p s))).
  Proof.
    unfold c_deliver. cbv zeta. change (c_new with_close) with (c_new O). change (c_file_loop rd fuel with_close) with (c_file_loop rd fuel O).
    pose proof (nc_new i len (c_hs p)) as H. destruct (c_new O i len (c_hs p)) as [[u|x] hs].
    - pose proof (nc_file_loop b64 fuel hs (map (fun _ => 0) (c_hs p)) s) as HL.
      destruct (c_file_loop rd fuel O fuel b64 hs (map (fun _ => 0) (c_hs p)) s) as [[r [k cs]] s1]. destruct r as [u2|[e| |b|]]; cbn in HL; tauto.
    - destruct x; cbn in H; tauto.
  Qed.
  Lemma nc_part ty m p s :
    c_part rd reg name2cp st fuel with_close ty m p s = c_part rd reg name2cp st fuel O ty m p s /\ ~ asks (fst (fst (c_part rd reg name2cp st fuel O ty m p s))).
  Proof.
    unfold c_part, c_read_file. destruct (dget CDISP m) as [[v disp]|]; [|easy]. destruct (dget !"name" disp) as [raw|]; [|easy].
    cbv zeta. destruct (to_native (pstrip raw)) as [name|e]; [|easy]. destruct ty; [easy| |].
    - destruct (match dget !"filename" disp with Some f => _ | None => _ end) as [[|x fn]|e]; [easy| |easy].
      destruct (match dget !"content-type" m with Some v0 => _ | None => _ end) as [ct extra]. apply nc_deliver.
    - now destruct (read_field rd reg st fuel name _ m (c_core p) s) as [[core|e] s1].
  Qed.
  Lemma nc_loop : forall n p s,
    c_loop rd reg name2cp st D fuel with_close truthy n p s = c_loop rd reg name2cp st D fuel O truthy n p s /\
    ~ asks (fst (fst (c_loop rd reg name2cp st D fuel O truthy n p s))).
  Proof.
    induction n as [|n IH]; intros p s; [easy|]. cbn [c_loop]. change (c_finish with_close) with (c_finish O).
    destruct (bi_init (ci_next rd) fuel s D) as [[b|e] s1]; [|now destruct e].
    destruct (parse_boundary_stream rd reg fuel (ls_init b None)) as [[[ty m]|e] s2]; [|easy].
    pose proof (nc_finish p) as H. destruct (c_finish O truthy p) as [[u|x] p1]; [|easy].
    destruct (nc_part ty m p1 s2) as [E H2]. rewrite E. destruct (c_part rd reg name2cp st fuel O ty m p1 s2) as [[[v|x] p2] s3]; [apply IH|easy].
  Qed.
  Theorem noclose_parse len csize hs r :
    c_parse rd exh reg name2cp st D fuel with_close truthy len csize hs r = c_parse rd exh reg name2cp st D fuel O truthy len csize hs r.
  Proof.
    unfold c_parse. cbv zeta. change (c_raw with_close) with (c_raw O). change (c_return with_close) with (c_return (R := R) O).
    destruct (Z.eqb len 0); [reflexivity|]. destruct (c_raw O len hs) as [[[x|]|x] k]; try reflexivity.
    destruct (querydict reg _ None true); [|reflexivity].
    destruct (nc_loop fuel (mkC core0 [] [] (map (fun _ => 0) k) k) (ls_init (mkCI r csize) None)) as [E H]. rewrite E.
    destruct (c_loop rd reg name2cp st D fuel O truthy fuel _ _) as [[[u|[e| |b|]] p1] s]; try reflexivity. cbn in H. tauto.
  Qed.
End NoClose.
