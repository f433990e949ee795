(** * How much the parser hands to an upload handler at once (claim C136) *)
From Verif Require Import Py Spec PyFacts PyDict StreamModel StreamSpec StreamFacts StreamCalm
  CodecModel QueryModel Base64Model HeaderModel
  BoundaryModel BoundarySpec BoundaryFacts PartFacts UploadModel MultipartModel CustomModel.

(** base64 never grows *)
Lemma a2b_length : forall s b, length (fst (a2b_loop s b)) <= length s.
Proof.
  induction s as [|c t IH]; intros b; [easy|]. cbn [a2b_loop].
  destruct (N.eqb c pad).
  - destruct (Nat.ltb (b_quad b) 2 || _)%bool; [specialize (IH b); cbn [length]; lia|cbn; lia].
  - destruct (b64val c) as [v|]; [|specialize (IH b); cbn [length]; lia].
    assert (HS : length (fst (b64_shift v b)) <= 1) by (unfold b64_shift; cbv zeta; destruct (N.leb 8 (b_bits b + 6)); cbn; lia).
    destruct (b64_shift v b) as [out b']. specialize (IH b'). destruct (a2b_loop t b') as [rest lb]. cbn [fst length] in *. rewrite app_length. lia.
Qed.
Lemma b64_length s d : b64decode s = Ok d -> length d <= length s.
Proof.
  unfold b64decode. pose proof (a2b_length s b64_init) as H. destruct (a2b_loop s b64_init) as [out lb]. destruct (N.eqb lb 0); [|easy]. now intros [= <-].
Qed.
Lemma remove_ws_length s : length (remove_ws s) <= length s.
Proof. unfold remove_ws. induction s as [|c s IH]; [easy|]. cbn [filter]. destruct (_ : bool); cbn [length]; lia. Qed.

Section Cap.
  Context {R : Type} (rd : nat -> R -> res str * R) (csize : nat).
  Context (HRd : forall r d r1, rd csize r = (Ok d, r1) -> length d <= csize).
  Context (reg : registry) (name2cp : str -> option N) (st : mset) (D : str) (fuel : nat).
  Notation P1 := (chunkiter R).
  Notation L1 := (lstream P1).
  Notation L2 := (lstream (biter P1)).
  Notation pn1 := (ci_next rd).
  Notation pn2 := (bi_next pn1 fuel).
  Notation one := (csize + rollback D).

  (** what the outer stream holds *)
  Definition sz1 (s : L1) : Prop := (exists c, ls_prod s = Some c /\ ci_size c = csize) /\ length (ls_left s) <= one.
  Lemma sz1_next s : sz1 s -> sz1 (snd (ls_next pn1 s)) /\
    match fst (ls_next pn1 s) with Chunk c => ls_left (snd (ls_next pn1 s)) = [] /\ length c <= Nat.max (length (ls_left s)) csize /\ c <> [] | _ => True end.
  Proof.
    intros [(c & E & Hc) HL]. unfold ls_next. destruct (ls_left s) as [|x l] eqn:El.
    - rewrite E. unfold ci_next. rewrite Hc. destruct (rd csize (ci_flo c)) as [[d|e] r1] eqn:Er.
      + destruct d as [|y d]; cbn [fst snd ls_left].
        * split; [|exact I]. split; [exists (mkCI r1 csize); now split|cbn; lia].
        * split; [split; [exists (mkCI r1 csize); now split|cbn; lia]|]. split; [reflexivity|]. apply HRd in Er. split; [lia|easy].
      + destruct e; cbn [fst snd ls_left]; (split; [|exact I]); (split; [exists (mkCI r1 csize); now split|cbn; lia]).
    - cbn [fst snd ls_left]. split; [split; [exists c; now split|cbn; lia]|]. split; [reflexivity|]. split; [lia|easy].
  Qed.
  Lemma sz1_collect : forall n read acc s, sz1 s -> length (concat acc) = read -> (read = 0 \/ (ls_left s = [] /\ read <= rollback D)) ->
    sz1 (snd (bi_collect pn1 n (rollback D) read acc s)) /\
    match fst (bi_collect pn1 n (rollback D) read acc s) with Ok (l, _) => ls_left (snd (bi_collect pn1 n (rollback D) read acc s)) = [] /\ length (concat l) <= one | _ => True end.
  Proof.
    induction n as [|n IH]; intros read acc s Hs Ha Hr; cbn [bi_collect]; [now split|].
    pose proof (sz1_next s Hs) as [H1 H2]. destruct (ls_next pn1 s) as [[c| |e] s1] eqn:EN; cbn [fst snd] in *.
    - destruct H2 as (H2 & H3 & _). assert (HC : length (concat (acc ++ [c])) = read + length c) by (rewrite concat_app, app_length; cbn; rewrite app_nil_r; lia).
      assert (HB : read + length c <= one).
      { destruct Hr as [->|[Hl Hr]]; [destruct Hs as [_ Hs]; lia|]. rewrite Hl in H3. cbn in H3. lia. }
      cbv zeta. destruct (Nat.ltb_spec (rollback D) (read + length c)); [exact (conj H1 (conj H2 (eq_ind_r (fun k => k <= one) HB HC)))|].
      destruct c as [|x c]; [exact (conj H1 (conj H2 (eq_ind_r (fun k => k <= one) HB HC)))|]. apply IH; [exact H1|exact HC|right; split; [exact H2|lia]].
    - split; [exact H1|]. split.
      + unfold ls_next in EN. destruct (ls_left s); [|discriminate EN]. destruct (ls_prod s) as [p|]; [|discriminate EN].
        destruct (pn1 p) as [[y| |e] q]; try discriminate EN. now injection EN as <-.
      + destruct Hr as [->|[_ Hr]]; lia.
    - now split.
  Qed.
  Lemma sz1_collected n s r : sz1 s -> bi_collect pn1 n (rollback D) 0 [] s = r ->
    sz1 (snd r) /\ match fst r with Ok (l, _) => ls_left (snd r) = [] /\ length (concat l) <= one | _ => True end.
  Proof. intros H <-. exact (sz1_collect n 0 [] s H eq_refl (or_introl eq_refl)). Qed.
  Lemma sz1_unget b s : sz1 s -> length b + length (ls_left s) <= one -> sz1 (snd (ls_unget b s)).
  Proof.
    intros [HP HL] Hb. unfold ls_unget. destruct b as [|x b]; [now split|]. destruct (Nat.ltb 40 _); cbn [snd]; split; try assumption.
    cbn [ls_left]. rewrite app_length. lia.
  Qed.
  (** the iterator of a part *)
  Definition szb (b : biter P1) : Prop := bi_boundary b = D /\ sz1 (bi_stream b).
  Lemma slice_length e s : length (slice_to e s) <= length s.
  Proof. unfold slice_to. destruct (Z.ltb e 0); rewrite firstn_length; lia. Qed.
  Lemma szb_next b : szb b -> szb (snd (pn2 b)) /\ match fst (pn2 b) with Chunk c => length c <= one | _ => True end.
  Proof.
    intros [HD Hs]. unfold bi_next. destruct (bi_done b); [exact (conj (conj HD Hs) I)|]. rewrite HD.
    pose proof (fun r => sz1_collected fuel (bi_stream b) r Hs) as HC.
    destruct (bi_collect pn1 fuel (rollback D) 0 [] (bi_stream b)) as [[[chunks ended]|e] s1] eqn:EC; specialize (HC _ eq_refl); cbn [fst snd] in HC; destruct HC as [H1 H2]; [|exact (conj (conj eq_refl H1) I)].
    destruct H2 as [H2 H3]. destruct chunks as [|c cs]; [exact (conj (conj eq_refl H1) I)|]. cbv zeta. set (chunk := concat (c :: cs)) in *. clearbody chunk.
    assert (HU : forall k, sz1 (snd (ls_unget (skipn k chunk) s1))).
    { intros k. apply sz1_unget; [exact H1|]. rewrite skipn_length, H2. cbn [length]. lia. }
    destruct (find_boundary D chunk) as [[e next]|].
    - specialize (HU next). destruct (ls_unget (skipn next chunk) s1) as [[u|x] s2]; cbn [fst snd] in *; [|exact (conj (conj eq_refl HU) I)].
      split; [exact (conj eq_refl HU)|]. pose proof (slice_length e chunk). lia.
    - destruct (upto_neg (rollback D) chunk) as [|y l] eqn:EU; [exact (conj (conj eq_refl H1) H3)|].
      unfold from_neg in *. match goal with |- context [ls_unget (skipn ?k chunk) s1] => specialize (HU k); destruct (ls_unget (skipn k chunk) s1) as [[u|x] s2] end;
        cbn [fst snd] in *; [|exact (conj (conj eq_refl HU) I)].
      split; [exact (conj eq_refl HU)|]. rewrite <- EU. unfold upto_neg. rewrite firstn_length. lia.
  Qed.

  (** the stream of a part: [k] is how much it may hold *)
  Definition sz2 (k : nat) (s : L2) : Prop := (exists b, ls_prod s = Some b /\ szb b) /\ length (ls_left s) <= k.
  Lemma sz2_mono j k s : j <= k -> sz2 j s -> sz2 k s. Proof. intros H [H1 H2]. split; [exact H1|lia]. Qed.
  Lemma sz2_next k s : sz2 k s -> sz2 0 (snd (ls_next pn2 s)) /\ match fst (ls_next pn2 s) with Chunk c => length c <= Nat.max k one | _ => True end.
  Proof.
    intros [(b & E & Hb) HL]. unfold ls_next. destruct (ls_left s) as [|x l].
    - rewrite E. destruct (szb_next b Hb) as [H1 H2]. destruct (pn2 b) as [[c| |e] b1]; cbn [fst snd] in *; (split; [split; [exists b1; now split|cbn; lia]|try exact I; lia]).
    - cbn [fst snd]. split; [split; [exists b; now split|cbn; lia]|lia].
  Qed.
  Lemma sz2_unget k b s : sz2 k s -> sz2 (length b + k) (snd (ls_unget b s)).
  Proof.
    intros [HP HL]. unfold ls_unget. destruct b as [|x b]; [now split|]. destruct (Nat.ltb 40 _); cbn [snd]; split; try assumption; cbn [ls_left]; [lia|].
    rewrite app_length. lia.
  Qed.
  Lemma sz2_read_loop k : one <= k -> forall n m out s, sz2 k s -> sz2 k (snd (ls_read_loop pn2 n m out s)).
  Proof.
    intros Hk. induction n as [|n IH]; intros m out s Hs; cbn [ls_read_loop]; [exact Hs|]. destruct (Z.eqb m 0); [exact Hs|]. destruct (Z.ltb m 0); [exact Hs|].
    destruct (sz2_next k s Hs) as [H1 H2]. destruct (ls_next pn2 s) as [[c| |e] s1]; cbn [fst snd] in *; try (apply (sz2_mono 0); [lia|exact H1]).
    pose proof (sz2_unget 0 (skipn (Z.to_nat m) c) s1 H1) as HU. apply (sz2_mono _ k) in HU; [|rewrite skipn_length; lia].
    destruct (ls_unget (skipn (Z.to_nat m) c) s1) as [[u|e] s2]; [now apply IH|exact HU].
  Qed.
  Lemma sz2_join k : forall n out s, sz2 k s -> sz2 k (snd (ls_join pn2 n out s)).
  Proof.
    induction n as [|n IH]; intros out s Hs; cbn [ls_join]; [exact Hs|].
    destruct (sz2_next k s Hs) as [H1 _]. destruct (ls_next pn2 s) as [[c| |e] s1]; cbn [fst snd] in *; [apply IH| |]; (apply (sz2_mono 0); [lia|exact H1]).
  Qed.
  Lemma sz2_read k size s : one <= k -> sz2 k s -> sz2 k (snd (ls_read pn2 fuel size s)).
  Proof. intros Hk Hs. unfold ls_read. destruct (match size with None => ls_remaining s | Some z => Some z end); [now apply sz2_read_loop|now apply sz2_join]. Qed.
  Lemma sz2_read_length : forall n m out s d s1, (0 <= m)%Z -> ls_read_loop pn2 n m out s = (Ok d, s1) -> (Z.of_nat (length d) <= Z.of_nat (length out) + m)%Z.
  Proof.
    induction n as [|n IH]; intros m out s d s1 Hm; cbn [ls_read_loop]; [easy|]. destruct (Z.eqb_spec m 0); [intros [= <- <-]; lia|].
    destruct (Z.ltb_spec m 0); [easy|]. destruct (ls_next pn2 s) as [[c| |e] s2]; [|intros [= <- <-]; lia|easy].
    destruct (ls_unget (skipn (Z.to_nat m) c) s2) as [[u|e] s3]; [|easy]. unfold zlen. intros HR. apply IH in HR; [rewrite app_length in HR; lia|]. rewrite firstn_length. lia.
  Qed.
  (** the start of a part *)
  Lemma sz1_init s b s1 : sz1 s -> bi_init pn1 fuel s D = (Ok b, s1) -> szb b.
  Proof.
    intros Hs. unfold bi_init, ls_read. destruct fuel as [|n]; [easy|]. cbn [ls_read_loop Z.eqb Z.ltb Z.compare].
    destruct (sz1_next s Hs) as [H1 H2]. destruct (ls_next pn1 s) as [[c| |e] t]; cbn [fst snd] in *; [|easy|easy].
    destruct H2 as (H2 & H3 & H4). destruct c as [|x c]; [easy|]. change (Z.to_nat 1) with 1. cbn [skipn firstn app].
    assert (HL : length (x :: c) <= one) by (destruct Hs as [_ Hs]; lia).
    destruct n as [|n]; [destruct (ls_unget c t) as [[u|e] t1]; easy|].
    change (1 - zlen [x])%Z with 0%Z. cbn [ls_read_loop Z.eqb].
    assert (E : ls_left (snd (ls_unget c t)) = [] \/ ls_left (snd (ls_unget c t)) = c).
    { unfold ls_unget. destruct c as [|y c]; [now left|]. destruct (Nat.ltb 40 _); cbn [snd ls_left]; [now left|right]. now rewrite H2, app_nil_r. }
    pose proof (sz1_unget c t H1) as HU. destruct (ls_unget c t) as [[u|e] t1]; [|easy]. cbn [snd] in *.
    rewrite H2 in HU. cbn [length] in *. specialize (HU ltac:(lia)).
    pose proof (sz1_unget [x] t1 HU) as HV. destruct (ls_unget [x] t1) as [[v|e] t2]; [|easy]. intros [= <- <-]. split; [reflexivity|].
    apply HV. cbn [length]. destruct E as [->| ->]; cbn [length]; lia.
  Qed.
  Lemma sz2_header s ty m s1 : sz2 0 s -> parse_boundary_stream rd reg fuel s = (Ok (ty, m), s1) -> (ty <> RAW -> sz2 (1020 + one) s1) /\ exists k, sz2 k s1.
  Proof.
    intros Hs. unfold parse_boundary_stream.
    assert (HR : sz2 one (snd (ls_read pn2 fuel (Some MAX_PART_HEADER) s))) by (apply sz2_read; [lia|apply (sz2_mono 0); [lia|exact Hs]]).
    destruct (ls_read pn2 fuel (Some MAX_PART_HEADER) s) as [[d|e] t] eqn:ER; [|easy]. cbn [snd] in HR.
    assert (Hd : length d <= 1024). { unfold ls_read in ER. apply sz2_read_length in ER; [|easy]. cbn [length] in ER. unfold MAX_PART_HEADER in ER. lia. }
    clear ER. destruct (find crlfcrlf d) as [i|].
    - pose proof (sz2_unget one (skipn (i + 4) d) t HR) as HU. destruct (ls_unget (skipn (i + 4) d) t) as [[u|e] t1]; [|easy]. cbn [snd] in HU.
      assert (HU' : sz2 (1020 + one) t1) by (revert HU; apply sz2_mono; rewrite skipn_length; lia). clear HU.
      destruct (header_meta reg (split crlf (firstn i d)) RAW []) as [[[] m1]|e]; [| | |easy].
      + pose proof (sz2_unget _ d t1 HU') as HV. destruct (ls_unget d t1) as [[v|e] t2]; [|easy]. intros [= <- <- <-]. split; [easy|]. eexists; exact HV.
      + intros [= <- <- <-]. split; [intros _; exact HU'|eexists; exact HU'].
      + intros [= <- <- <-]. split; [intros _; exact HU'|eexists; exact HU'].
    - pose proof (sz2_unget _ d t HR) as HV. destruct (ls_unget d t) as [[v|e] t2]; [|easy]. intros [= <- <- <-]. split; [easy|]. eexists; exact HV.
  Qed.
  Lemma sz2_fill q k : one <= k -> forall n acc s, sz2 k s -> length acc <= 4 * q ->
    sz2 k (snd (b64_fill rd fuel n acc s)) /\ match fst (b64_fill rd fuel n acc s) with Ok g => length g <= 4 * q | Err _ => True end.
  Proof.
    intros Hk. induction n as [|n IH]; intros acc s Hs Ha; [now split|]. cbn [b64_fill]. cbv zeta. destruct (Nat.eqb_spec (Nat.modulo (length acc) 4) 0) as [E|E]; [now split|].
    pose proof (sz2_read k (Some (Z.of_nat (4 - Nat.modulo (length acc) 4))) s Hk Hs) as HR.
    destruct (ls_read pn2 fuel (Some (Z.of_nat (4 - Nat.modulo (length acc) 4))) s) as [[over|e] s1] eqn:ER; [|now split]. apply IH; [exact HR|].
    unfold ls_read in ER. apply sz2_read_length in ER; [|lia]. cbn [length] in ER. rewrite app_length. pose proof (remove_ws_length over).
    pose proof (Nat.div_mod (length acc) 4 ltac:(discriminate)). pose proof (Nat.mod_upper_bound (length acc) 4 ltac:(discriminate)).
    assert (length acc / 4 < q) by lia. lia.
  Qed.
  Lemma sz2_drain k : forall n s, sz2 k s -> sz2 k (snd (ls_drain pn2 n s)).
  Proof.
    induction n as [|n IH]; intros s Hs; cbn [ls_drain]; [exact Hs|].
    destruct (sz2_next k s Hs) as [H1 _]. destruct (ls_next pn2 s) as [[c| |e] s1]; cbn [fst snd] in *; [apply IH| |]; (apply (sz2_mono 0); [lia|exact H1]).
  Qed.
  Lemma sz2_field k name tenc m p s : one <= k -> sz2 k s -> sz2 k (snd (read_field rd reg st fuel name tenc m p s)).
  Proof.
    intros Hk H. unfold read_field. cbv zeta. destruct (match ms_dnum st with Some n => _ | None => _ end); [easy|].
    pose proof (sz2_read k (option_map (fun n => (n - p_bytes p)%Z) (ms_dmem st)) s Hk H) as HR.
    destruct (ls_read pn2 fuel (option_map (fun n => (n - p_bytes p)%Z) (ms_dmem st)) s) as [[raw|e] s1]; [|easy].
    destruct (match tenc with Some t => _ | None => _ end) as [data|e]; [|easy].
    destruct (match ms_dmem st with Some n => _ | None => _ end); [easy|].
    destruct (match dget !"content-type" m with Some v => _ | None => _ end) as [ct extra].
    now destruct (post_append reg (ms_charset st) name _ (p_post p)) as [post|x].
  Qed.

  (** *** The parser with handlers that refuse more than [B] bytes *)
  Context {S F X : Type} (O : ops S F X) (truthy : F -> bool) (exh : R -> res unit * R) (B : nat) (e0 : cexn).
  Context (HB : one + 1023 <= B).
  Context (Hdata : forall d n h d' h', o_data O d n h = (Good (Some d'), h') -> length d' <= length d).
  Definition capped : ops S F X :=
    mkOps S F X (o_raw O) (o_new O) (fun d n h => if Nat.ltb B (length d) then (Bad e0, h) else o_data O d n h) (o_done O) (o_close O) (o_end O).
  Lemma cap_feed : forall hs d cs, length d <= B -> c_feed capped d hs cs = c_feed O d hs cs.
  Proof.
    induction hs as [|h hs IH]; intros d [|c cs] Hd; try reflexivity. cbn [c_feed capped o_data]. destruct (Nat.ltb_spec B (length d)) as [L|L]; [lia|].
    destruct (o_data O d c h) as [[[d1|]|x] h1] eqn:E; [|reflexivity|reflexivity]. apply Hdata in E. now rewrite IH by lia.
  Qed.
  Lemma cap_file_loop b64 : forall n hs cs s, sz2 (1020 + one) s ->
    c_file_loop rd fuel capped n b64 hs cs s = c_file_loop rd fuel O n b64 hs cs s /\ sz2 (1020 + one) (snd (c_file_loop rd fuel O n b64 hs cs s)).
  Proof.
    induction n as [|n IH]; intros hs cs s Hs; [now split|]. cbn [c_file_loop].
    destruct (sz2_next _ s Hs) as [H1 H2]. destruct (ls_next pn2 s) as [[c| |e] s1]; cbn [fst snd] in *; try (split; [reflexivity|apply (sz2_mono 0); [lia|exact H1]]).
    assert (H1' : sz2 (1020 + one) s1) by (apply (sz2_mono 0); [lia|exact H1]). clear H1. destruct b64.
    - pose proof (remove_ws_length c). pose proof (Nat.div_mod (length (remove_ws c) + 3) 4 ltac:(discriminate)). pose proof (Nat.mod_upper_bound (length (remove_ws c) + 3) 4 ltac:(discriminate)).
      destruct (sz2_fill ((length (remove_ws c) + 3) / 4) (1020 + one) ltac:(lia) fuel (remove_ws c) s1 H1' ltac:(lia)) as [H3 H4].
      destruct (b64_fill rd fuel fuel (remove_ws c) s1) as [[g|e] s2]; [|now split]. cbn [fst snd] in *. pose proof (b64_length g) as HG. destruct (b64decode g) as [d|e]; [|now split].
      specialize (HG d eq_refl). rewrite cap_feed by lia. destruct (c_feed O d hs cs) as [[u|x] hc]; [now apply IH|now split].
    - rewrite cap_feed by lia. destruct (c_feed O c hs cs) as [[u|x] hc]; [now apply IH|now split].
  Qed.
  Lemma cap_deliver i len b64 (p : cst S F) s : sz2 (1020 + one) s ->
    c_deliver rd fuel capped i len b64 p s = c_deliver rd fuel O i len b64 p s /\ sz2 (1020 + one) (snd (c_deliver rd fuel O i len b64 p s)).
  Proof.
    intros H. unfold c_deliver. cbv zeta. change (c_new capped) with (c_new O). change (c_close capped) with (c_close O).
    assert (HSk : forall hs cs s1, sz2 (1020 + one) s1 -> sz2 (1020 + one) (snd (match c_close O hs with
         | (Bad x, hs1) => ((Bad x, mkC (c_core p) (c_files p) [] cs hs1), s1)
         | (Good _, hs1) => match ls_drain pn2 fuel s1 with
                            | (Err e, s2) => ((Bad (CExn e), mkC (c_core p) (c_files p) [] cs hs1), s2)
                            | (Ok _, s2) => ((Good tt, mkC (c_core p) (c_files p) [] cs hs1), s2)
                            end
         end))).
    { intros hs cs s1 H1. destruct (c_close O hs) as [[u|x] hs1]; [|easy].
      pose proof (sz2_drain _ fuel s1 H1) as HD. now destruct (ls_drain pn2 fuel s1) as [[u1|e] s2]. }
    destruct (c_new O i len (c_hs p)) as [[u|x] hs]; [|destruct x; (split; [reflexivity|]); auto].
    destruct (cap_file_loop b64 fuel hs (map (fun _ => 0) (c_hs p)) s H) as [E HF]. rewrite E.
    destruct (c_file_loop rd fuel O fuel b64 hs (map (fun _ => 0) (c_hs p)) s) as [[[u1|x] [hs1 cs1]] s1]; [now split|].
    destruct x; (split; [reflexivity|]); auto.
  Qed.
  Lemma cap_part ty m (p : cst S F) s : (ty <> RAW -> sz2 (1020 + one) s) -> (exists k, sz2 k s) ->
    c_part rd reg name2cp st fuel capped ty m p s = c_part rd reg name2cp st fuel O ty m p s /\ exists k, sz2 k (snd (c_part rd reg name2cp st fuel O ty m p s)).
  Proof.
    intros H H0. unfold c_part, c_read_file. destruct (dget CDISP m) as [[v disp]|]; [|now split].
    destruct (dget !"name" disp) as [raw|]; [|now split]. cbv zeta.
    destruct (to_native (pstrip raw)) as [name|e]; [|now split]. destruct ty; [now split| |].
    - destruct (match dget !"filename" disp with Some f => _ | None => _ end) as [[|x fn]|e]; [now split| |now split].
      destruct (match dget !"content-type" m with Some v0 => _ | None => _ end) as [ct extra]. specialize (H ltac:(easy)).
      match goal with |- context [c_deliver rd fuel O ?i ?len ?b p s] => destruct (cap_deliver i len b p s H) as [E HD] end. split; [exact E|eexists; exact HD].
    - specialize (H ltac:(easy)). pose proof (sz2_field (1020 + one) name (option_map (fun v0 => ustrip (fst v0)) (dget !"content-transfer-encoding" m)) m (c_core p) s ltac:(lia) H) as HF.
      destruct (read_field rd reg st fuel name _ m (c_core p) s) as [[core|e] s1]; (split; [reflexivity|eexists; exact HF]).
  Qed.
  Lemma sz_outer s1 s2 : (exists k, sz2 k s2) -> sz1 (outer_of s1 s2).
  Proof. intros (k & (b & Hb & _ & H) & _). unfold outer_of. now rewrite Hb. Qed.
  Lemma cap_loop : forall n (p : cst S F) s, sz1 s ->
    c_loop rd reg name2cp st D fuel capped truthy n p s = c_loop rd reg name2cp st D fuel O truthy n p s.
  Proof.
    induction n as [|n IH]; intros p s Hs; [reflexivity|]. cbn [c_loop]. change (c_finish capped) with (c_finish O).
    pose proof (sz1_init s) as HI. destruct (bi_init pn1 fuel s D) as [[b|e] s1]; [|reflexivity]. specialize (HI b s1 Hs eq_refl).
    assert (H3 : sz2 0 (ls_init b None)) by (split; [now exists b|cbn; lia]).
    pose proof (sz2_header (ls_init b None)) as HP. destruct (parse_boundary_stream rd reg fuel (ls_init b None)) as [[[ty m]|e] s2]; [|reflexivity].
    destruct (HP ty m s2 H3 eq_refl) as [HP1 HP2]. destruct (c_finish O truthy p) as [[u|x] p1]; [|reflexivity].
    destruct (cap_part ty m p1 s2 HP1 HP2) as [E HQ]. rewrite E. destruct (c_part rd reg name2cp st fuel O ty m p1 s2) as [[[v|x] p2] s3]; [|reflexivity].
    apply IH. now apply sz_outer.
  Qed.
  Theorem cap_parse len hs r :
    c_parse rd exh reg name2cp st D fuel capped truthy len csize hs r = c_parse rd exh reg name2cp st D fuel O truthy len csize hs r.
  Proof.
    unfold c_parse. cbv zeta. change (c_raw capped) with (c_raw O). change (c_return capped) with (c_return (R := R) O). change (c_close capped) with (c_close O).
    destruct (Z.eqb len 0); [reflexivity|]. destruct (c_raw O len hs) as [[[x|]|x] k]; try reflexivity.
    destruct (querydict reg _ None true); [|reflexivity]. rewrite cap_loop; [reflexivity|]. split; [now exists (mkCI r csize)|cbn; lia].
  Qed.
End Cap.
