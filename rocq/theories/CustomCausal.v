(** * What a parse decides does not depend on what it has not read (claim C137): two inputs that agree until the
    first fails with [e0] *)
From Verif Require Import Py PyFacts PyDict StreamModel CodecModel QueryModel Base64Model HeaderModel BoundaryModel UploadModel MultipartModel CustomModel.

Section Upto.
  Context (e0 : exn).
  Definition nup {A B} (K : A -> B -> Prop) (x : nxt * A) (y : nxt * B) : Prop := fst x = Raise e0 \/ (fst x = fst y /\ K (snd x) (snd y)).
  Definition rup {C A B} (K : A -> B -> Prop) (x : res C * A) (y : res C * B) : Prop := fst x = Err e0 \/ (fst x = fst y /\ K (snd x) (snd y)).

  Section Stream.
    Context {P Q : Type} (pn : P -> nxt * P) (qn : Q -> nxt * Q) (K : P -> Q -> Prop).
    Context (HK : forall p q, K p q -> nup K (pn p) (qn q)).
    (** the same stream over related producers *)
    Definition lsame (s : lstream P) (t : lstream Q) : Prop :=
      exists p q, s = mkLS (Some p) (ls_left s) (ls_pos s) (ls_hist s) (ls_remaining s) /\
                  t = mkLS (Some q) (ls_left s) (ls_pos s) (ls_hist s) (ls_remaining s) /\ K p q.
    Lemma lsame_mk p q l a h r : K p q -> lsame (mkLS (Some p) l a h r) (mkLS (Some q) l a h r).
    Proof. intros H. now exists p, q. Qed.
    Lemma next_up s t : lsame s t -> nup lsame (ls_next pn s) (ls_next qn t).
    Proof.
      intros (p & q & -> & -> & H). cbn [ls_left ls_pos ls_hist ls_remaining]. unfold ls_next. cbn [ls_left ls_pos ls_hist ls_remaining ls_prod].
      destruct (ls_left s) as [|x l]; [|right; split; [reflexivity|now apply lsame_mk]].
      destruct (HK p q H) as [E|[E H1]]; destruct (pn p) as [[c| |e] p1], (qn q) as [[c2| |e2] q1]; cbn [fst snd] in *; try discriminate E;
        try (left; now rewrite <- E || exact E); try injection E as <-; right; (split; [reflexivity|now apply lsame_mk]).
    Qed.
    Lemma unget_up b s t : lsame s t -> rup lsame (ls_unget b s) (ls_unget b t).
    Proof.
      intros H. right. destruct H as (p & q & -> & -> & H). cbn [ls_left ls_pos ls_hist ls_remaining]. unfold ls_unget. cbn [ls_left ls_pos ls_hist ls_remaining ls_prod].
      destruct b as [|x b]; [split; [reflexivity|now apply lsame_mk]|]. cbv zeta. destruct (Nat.ltb 40 _); (split; [reflexivity|now apply lsame_mk]).
    Qed.
    Lemma loop_up : forall n m out s t, lsame s t -> rup lsame (ls_read_loop pn n m out s) (ls_read_loop qn n m out t).
    Proof.
      induction n as [|n IH]; intros m out s t H; cbn [ls_read_loop]; [now right|]. destruct (Z.eqb m 0); [now right|]. destruct (Z.ltb m 0); [now right|].
      destruct (next_up s t H) as [E|[E H1]]; destruct (ls_next pn s) as [[c| |e] s1], (ls_next qn t) as [[c2| |e2] t1]; cbn [fst snd] in *; try discriminate E;
        try (left; cbn; congruence); try injection E as <-; try now right.
      destruct (unget_up (skipn (Z.to_nat m) c) s1 t1 H1) as [E|[E H2]]; destruct (ls_unget (skipn (Z.to_nat m) c) s1) as [[u|e] s2], (ls_unget (skipn (Z.to_nat m) c) t1) as [[v|e2] t2];
        cbn [fst snd] in *; try discriminate E; try (left; cbn; congruence); try injection E as <-; [now apply IH|now right].
    Qed.
    Lemma join_up : forall n out s t, lsame s t -> rup lsame (ls_join pn n out s) (ls_join qn n out t).
    Proof.
      induction n as [|n IH]; intros out s t H; cbn [ls_join]; [now right|].
      destruct (next_up s t H) as [E|[E H1]]; destruct (ls_next pn s) as [[c| |e] s1], (ls_next qn t) as [[c2| |e2] t1]; cbn [fst snd] in *; try discriminate E;
        try (left; cbn; congruence); try injection E as <-; [now apply IH|now right|now right].
    Qed.
    Lemma read_up n size s t : lsame s t -> rup lsame (ls_read pn n size s) (ls_read qn n size t).
    Proof.
      intros H. assert (E : ls_remaining t = ls_remaining s) by (destruct H as (p & q & _ & -> & _); reflexivity).
      unfold ls_read. rewrite E. destruct (match size with None => ls_remaining s | Some z => Some z end); [now apply loop_up|now apply join_up].
    Qed.
    Lemma drain_up : forall n s t, lsame s t -> rup lsame (ls_drain pn n s) (ls_drain qn n t).
    Proof.
      induction n as [|n IH]; intros s t H; cbn [ls_drain]; [now right|].
      destruct (next_up s t H) as [E|[E H1]]; destruct (ls_next pn s) as [[c| |e] s1], (ls_next qn t) as [[c2| |e2] t1]; cbn [fst snd] in *; try discriminate E;
        try (left; cbn; congruence); try injection E as <-; [now apply IH|now right|now right].
    Qed.
  End Stream.

  Section Parser.
    Context (Hne : e0 <> InputStreamExhausted).
    Context {R1 R2 : Type} (rd1 : nat -> R1 -> res str * R1) (rd2 : nat -> R2 -> res str * R2) (J : R1 -> R2 -> Prop).
    Context (HJ : forall n r s, J r s -> rup J (rd1 n r) (rd2 n s)).
    Context (reg : registry) (name2cp : str -> option N) (st : mset) (D : str) (fuel : nat).
    Context {S F X : Type} (O : ops S F X) (truthy : F -> bool).
    Notation pa := (ci_next rd1).
    Notation pb := (ci_next rd2).
    Notation qa := (bi_next pa fuel).
    Notation qb := (bi_next pb fuel).
    Definition K1 (c : chunkiter R1) (d : chunkiter R2) : Prop := ci_size c = ci_size d /\ J (ci_flo c) (ci_flo d).
    Notation L1 := (lsame K1).
    Definition K2 (b : biter (chunkiter R1)) (c : biter (chunkiter R2)) : Prop :=
      bi_boundary b = bi_boundary c /\ bi_done b = bi_done c /\ L1 (bi_stream b) (bi_stream c).
    Notation L2 := (lsame K2).
    Lemma ci_up c d : K1 c d -> nup K1 (pa c) (pb d).
    Proof.
      intros [H1 H2]. unfold ci_next. rewrite <- H1. destruct (HJ (ci_size c) _ _ H2) as [E|[E H]];
        destruct (rd1 (ci_size c) (ci_flo c)) as [[x|e] r], (rd2 (ci_size c) (ci_flo d)) as [[y|e2] s]; cbn [fst snd] in *; try discriminate E.
      - injection E as ->. left. destruct e0; try reflexivity. now contradiction Hne.
      - injection E as ->. left. destruct e0; try reflexivity. now contradiction Hne.
      - injection E as <-. right. destruct x; (split; [reflexivity|now split]).
      - injection E as <-. right. destruct e; (split; [reflexivity|now split]).
    Qed.
    Lemma collect_up rb : forall n read acc s t, L1 s t -> rup L1 (bi_collect pa n rb read acc s) (bi_collect pb n rb read acc t).
    Proof.
      induction n as [|n IH]; intros read acc s t H; cbn [bi_collect]; [now right|].
      destruct (next_up pa pb K1 ci_up s t H) as [E|[E H1]]; destruct (ls_next pa s) as [[c| |e] s1], (ls_next pb t) as [[c2| |e2] t1]; cbn [fst snd] in *; try discriminate E;
        try (left; cbn; congruence); try injection E as <-; [|now right|now right].
      cbv zeta. destruct (Nat.ltb rb _); [now right|]. destruct c; [now right|]. now apply IH.
    Qed.
    Lemma bi_up b c : K2 b c -> nup K2 (qa b) (qb c).
    Proof.
      intros H0. pose proof H0 as (H1 & H2 & H3). unfold bi_next. rewrite <- H1, <- H2. destruct (bi_done b); [right; exact (conj eq_refl H0)|]. cbv zeta.
      destruct (collect_up (rollback (bi_boundary b)) fuel 0 [] _ _ H3) as [E|[E H]];
        destruct (bi_collect pa fuel (rollback (bi_boundary b)) 0 [] (bi_stream b)) as [[[l ended]|e] s1], (bi_collect pb fuel (rollback (bi_boundary b)) 0 [] (bi_stream c)) as [[[l2 ended2]|e2] t1];
        cbn [fst snd] in *; try discriminate E; try (left; cbn; congruence); [|injection E as <-; right; now split].
      injection E as <- <-. destruct l as [|x l]; [right; now split|].
      destruct (find_boundary (bi_boundary b) (concat (x :: l))) as [[e next]|].
      - destruct (unget_up K1 (skipn next (concat (x :: l))) s1 t1 H) as [E|[E HU]];
          destruct (ls_unget (skipn next (concat (x :: l))) s1) as [[u|y] s2], (ls_unget (skipn next (concat (x :: l))) t1) as [[v|y2] t2];
          cbn [fst snd] in *; try discriminate E; try (left; cbn; congruence); try injection E as <-; right; now split.
      - destruct (upto_neg _ _) as [|y z]; [right; now split|].
        destruct (unget_up K1 (from_neg (rollback (bi_boundary b)) (concat (x :: l))) s1 t1 H) as [E|[E HU]];
          destruct (ls_unget (from_neg (rollback (bi_boundary b)) (concat (x :: l))) s1) as [[u|w] s2], (ls_unget (from_neg (rollback (bi_boundary b)) (concat (x :: l))) t1) as [[v|w2] t2];
          cbn [fst snd] in *; try discriminate E; try (left; cbn; congruence); try injection E as <-; right; now split.
    Qed.
    Lemma init_up s t : L1 s t ->
      fst (bi_init pa fuel s D) = Err e0 \/
      match bi_init pa fuel s D, bi_init pb fuel t D with
      | (Ok b, s1), (Ok c, t1) => K2 b c /\ L1 s1 t1
      | (Err e, s1), (Err e2, t1) => e = e2 /\ L1 s1 t1
      | _, _ => False
      end.
    Proof.
      intros H. unfold bi_init. destruct (read_up pa pb K1 ci_up fuel (Some 1%Z) s t H) as [E|[E H1]];
        destruct (ls_read pa fuel (Some 1%Z) s) as [[c|e] s1], (ls_read pb fuel (Some 1%Z) t) as [[c2|e2] t1]; cbn [fst snd] in *; try discriminate E;
        try (left; cbn; congruence); try injection E as <-; [|now right]. destruct c as [|x c]; [now right|].
      destruct (unget_up K1 (x :: c) s1 t1 H1) as [E|[E HU]]; destruct (ls_unget (x :: c) s1) as [[u|y] s2], (ls_unget (x :: c) t1) as [[v|y2] t2];
        cbn [fst snd] in *; try discriminate E; try (left; cbn; congruence); try injection E as <-; right; now repeat split.
    Qed.
    Lemma pbs_up s t : L2 s t -> rup L2 (parse_boundary_stream rd1 reg fuel s) (parse_boundary_stream rd2 reg fuel t).
    Proof.
      intros H. unfold parse_boundary_stream. destruct (read_up qa qb K2 bi_up fuel (Some MAX_PART_HEADER) s t H) as [E|[E H1]];
        destruct (ls_read qa fuel (Some MAX_PART_HEADER) s) as [[d|e] s1], (ls_read qb fuel (Some MAX_PART_HEADER) t) as [[d2|e2] t1]; cbn [fst snd] in *; try discriminate E;
        try (left; cbn; congruence); try injection E as <-; [|now right].
      destruct (find crlfcrlf d) as [i|].
      - destruct (unget_up K2 (skipn (i + 4) d) s1 t1 H1) as [E|[E HU]]; destruct (ls_unget (skipn (i + 4) d) s1) as [[u|y] s2], (ls_unget (skipn (i + 4) d) t1) as [[v|y2] t2];
          cbn [fst snd] in *; try discriminate E; try (left; cbn; congruence); try injection E as <-; [|now right].
        destruct (header_meta reg (split crlf (firstn i d)) RAW []) as [[[] m]|e]; try now right.
        destruct (unget_up K2 d s2 t2 HU) as [E|[E HV]]; destruct (ls_unget d s2) as [[u1|y] s3], (ls_unget d t2) as [[v1|y2] t3];
          cbn [fst snd] in *; try discriminate E; try (left; cbn; congruence); try injection E as <-; now right.
      - destruct (unget_up K2 d s1 t1 H1) as [E|[E HU]]; destruct (ls_unget d s1) as [[u|y] s2], (ls_unget d t1) as [[v|y2] t2];
          cbn [fst snd] in *; try discriminate E; try (left; cbn; congruence); try injection E as <-; now right.
    Qed.
    Lemma field_up name tenc m p s t : L2 s t -> rup L2 (read_field rd1 reg st fuel name tenc m p s) (read_field rd2 reg st fuel name tenc m p t).
    Proof.
      intros H. unfold read_field. cbv zeta. destruct (match ms_dnum st with Some n => _ | None => _ end); [now right|].
      destruct (read_up qa qb K2 bi_up fuel (option_map (fun n => (n - p_bytes p)%Z) (ms_dmem st)) s t H) as [E|[E H1]];
        destruct (ls_read qa fuel (option_map (fun n => (n - p_bytes p)%Z) (ms_dmem st)) s) as [[d|e] s1], (ls_read qb fuel (option_map (fun n => (n - p_bytes p)%Z) (ms_dmem st)) t) as [[d2|e2] t1];
        cbn [fst snd] in *; try discriminate E; try (left; cbn; congruence); try injection E as <-; [|now right].
      destruct (match tenc with Some t0 => _ | None => _ end) as [data|e]; [|now right].
      destruct (match ms_dmem st with Some n => _ | None => _ end); [now right|].
      destruct (match dget !"content-type" m with Some v => _ | None => _ end) as [ct extra].
      destruct (post_append reg (ms_charset st) name _ (p_post p)) as [post|x]; now right.
    Qed.
    Lemma fill_up : forall n acc s t, L2 s t -> rup L2 (b64_fill rd1 fuel n acc s) (b64_fill rd2 fuel n acc t).
    Proof.
      induction n as [|n IH]; intros acc s t H; [now right|]. cbn [b64_fill]. cbv zeta. destruct (Nat.eqb _ 0); [now right|].
      destruct (read_up qa qb K2 bi_up fuel (Some (Z.of_nat (4 - Nat.modulo (length acc) 4))) s t H) as [E|[E H1]];
        destruct (ls_read qa fuel (Some (Z.of_nat (4 - Nat.modulo (length acc) 4))) s) as [[d|e] s1], (ls_read qb fuel (Some (Z.of_nat (4 - Nat.modulo (length acc) 4))) t) as [[d2|e2] t1];
        cbn [fst snd] in *; try discriminate E; try (left; cbn; congruence); try injection E as <-; [now apply IH|now right].
    Qed.
    (** the result, the handlers and the input *)
    Definition cup {A B C W} (K : B -> C -> Prop) (x : (cr A * W) * B) (y : (cr A * W) * C) : Prop := fst (fst x) = Bad (CExn e0) \/ (fst x = fst y /\ K (snd x) (snd y)).
    Lemma file_up b64 : forall n hs cs s t, L2 s t -> cup L2 (c_file_loop rd1 fuel O n b64 hs cs s) (c_file_loop rd2 fuel O n b64 hs cs t).
    Proof.
      induction n as [|n IH]; intros hs cs s t H; [now right|]. cbn [c_file_loop].
      destruct (next_up qa qb K2 bi_up s t H) as [E|[E H1]]; destruct (ls_next qa s) as [[c| |e] s1], (ls_next qb t) as [[c2| |e2] t1]; cbn [fst snd] in *; try discriminate E;
        try (left; cbn; congruence); try injection E as <-; [|now right|now right]. destruct b64.
      - destruct (fill_up fuel (remove_ws c) s1 t1 H1) as [E|[E H2]];
          destruct (b64_fill rd1 fuel fuel (remove_ws c) s1) as [[g|e] s2], (b64_fill rd2 fuel fuel (remove_ws c) t1) as [[g2|e2] t2];
          cbn [fst snd] in *; try discriminate E; try (left; cbn; congruence); try injection E as <-; [|now right].
        destruct (b64decode g) as [d|e]; [|now right]. destruct (c_feed O d hs cs) as [[u|x] hc]; [now apply IH|now right].
      - destruct (c_feed O c hs cs) as [[u|x] hc]; [now apply IH|now right].
    Qed.
    Lemma deliver_up i len b64 (p : cst S F) s t : L2 s t -> cup L2 (c_deliver rd1 fuel O i len b64 p s) (c_deliver rd2 fuel O i len b64 p t).
    Proof.
      intros H. unfold c_deliver. cbv zeta.
      assert (HSk : forall hs cs s1 t1, L2 s1 t1 -> cup L2
         (match c_close O hs with
         | (Bad x, hs1) => ((Bad x, mkC (c_core p) (c_files p) [] cs hs1), s1)
         | (Good _, hs1) => match ls_drain qa fuel s1 with
                            | (Err e, s2) => ((Bad (CExn e), mkC (c_core p) (c_files p) [] cs hs1), s2)
                            | (Ok _, s2) => ((Good tt, mkC (c_core p) (c_files p) [] cs hs1), s2)
                            end
         end)
         (match c_close O hs with
         | (Bad x, hs1) => ((Bad x, mkC (c_core p) (c_files p) [] cs hs1), t1)
         | (Good _, hs1) => match ls_drain qb fuel t1 with
                            | (Err e, s2) => ((Bad (CExn e), mkC (c_core p) (c_files p) [] cs hs1), s2)
                            | (Ok _, s2) => ((Good tt, mkC (c_core p) (c_files p) [] cs hs1), s2)
                            end
         end)).
      { intros hs cs s1 t1 H1. destruct (c_close O hs) as [[u|x] hs1]; [|now right].
        destruct (drain_up qa qb K2 bi_up fuel s1 t1 H1) as [E|[E H2]]; destruct (ls_drain qa fuel s1) as [[u1|e] s2], (ls_drain qb fuel t1) as [[u2|e2] t2];
          cbn [fst snd] in *; try discriminate E; try (left; cbn; congruence); try injection E as <-; now right. }
      destruct (c_new O i len (c_hs p)) as [[u|x] hs]; [|destruct x; try (now right); now apply HSk].
      destruct (file_up b64 fuel hs (map (fun _ => 0) (c_hs p)) s t H) as [E|[E H1]];
        destruct (c_file_loop rd1 fuel O fuel b64 hs (map (fun _ => 0) (c_hs p)) s) as [[r1 [hs1 cs1]] s1], (c_file_loop rd2 fuel O fuel b64 hs (map (fun _ => 0) (c_hs p)) t) as [[r2 [hs2 cs2]] t1];
        cbn [fst snd] in *; [left; now rewrite E|]. injection E as <- <- <-. destruct r1 as [u1|[]]; try (now right); now apply HSk.
    Qed.
    Lemma part_up ty m (p : cst S F) s t : L2 s t -> cup L2 (c_part rd1 reg name2cp st fuel O ty m p s) (c_part rd2 reg name2cp st fuel O ty m p t).
    Proof.
      intros H. unfold c_part, c_read_file. destruct (dget CDISP m) as [[v disp]|]; [|now right].
      destruct (dget !"name" disp) as [raw|]; [|now right]. cbv zeta.
      destruct (to_native (pstrip raw)) as [name|e]; [|now right]. destruct ty; [now right| |].
      - destruct (match dget !"filename" disp with Some f => _ | None => _ end) as [[|x fn]|e]; [now right| |now right].
        destruct (match dget !"content-type" m with Some v0 => _ | None => _ end) as [ct extra]. now apply deliver_up.
      - destruct (field_up name (option_map (fun v0 => ustrip (fst v0)) (dget !"content-transfer-encoding" m)) m (c_core p) s t H) as [E|[E H1]];
          destruct (read_field rd1 reg st fuel name _ m (c_core p) s) as [[core|e] s1], (read_field rd2 reg st fuel name _ m (c_core p) t) as [[core2|e2] t1];
          cbn [fst snd] in *; try discriminate E; try (left; cbn; congruence); try injection E as <-; now right.
    Qed.
    Lemma outer_up s1 t1 s2 t2 : L2 s2 t2 -> L1 (outer_of s1 s2) (outer_of t1 t2).
    Proof. intros (b & c & -> & -> & _ & _ & H). exact H. Qed.
    Lemma cloop_up : forall n (p : cst S F) s t, L1 s t -> cup L1 (c_loop rd1 reg name2cp st D fuel O truthy n p s) (c_loop rd2 reg name2cp st D fuel O truthy n p t).
    Proof.
      induction n as [|n IH]; intros p s t H; [now right|]. cbn [c_loop].
      destruct (init_up s t H) as [E|HI].
      - left. destruct (bi_init pa fuel s D) as [[b|e] s1]; cbn [fst] in E; [easy|]. injection E as ->. destruct e0; try reflexivity. now contradiction Hne.
      - destruct (bi_init pa fuel s D) as [[b|e] s1], (bi_init pb fuel t D) as [[c|e2] t1]; try easy.
        2:{ destruct HI as [<- HI]. right. destruct e; (split; [reflexivity|exact HI]). }
        destruct HI as [HB H1]. assert (H2 : L2 (ls_init b None) (ls_init c None)) by now exists b, c.
        destruct (pbs_up _ _ H2) as [E|[E H3]]; destruct (parse_boundary_stream rd1 reg fuel (ls_init b None)) as [[[ty m]|e] s2], (parse_boundary_stream rd2 reg fuel (ls_init c None)) as [[[ty2 m2]|e2] t2];
          cbn [fst snd] in *; try discriminate E; try (left; cbn; congruence); [|injection E as <-; right; split; [reflexivity|now apply outer_up]]. injection E as <- <-.
        destruct (c_finish O truthy p) as [[u|x] p1]; [|right; split; [reflexivity|now apply outer_up]].
        destruct (part_up ty m p1 s2 t2 H3) as [E|[E H4]]; destruct (c_part rd1 reg name2cp st fuel O ty m p1 s2) as [[r1 p2] s3], (c_part rd2 reg name2cp st fuel O ty m p1 t2) as [[r2 p3] t3];
          cbn [fst snd] in *; [left; now rewrite E|]. injection E as <- <-. destruct r1 as [u1|x]; [apply IH; now apply outer_up|right; split; [reflexivity|now apply outer_up]].
    Qed.
    Context (exh1 : R1 -> res unit * R1) (exh2 : R2 -> res unit * R2) (HX : forall r s, J r s -> rup J (exh1 r) (exh2 s)).
    Theorem parse_up len csize hs r s : J r s ->
      cup J (c_parse rd1 exh1 reg name2cp st D fuel O truthy len csize hs r) (c_parse rd2 exh2 reg name2cp st D fuel O truthy len csize hs s).
    Proof.
      intros H. assert (HR : forall p k a b, J a b -> cup J (c_return O p k a) (c_return O p k b)).
      { intros p k a b HJab. unfold c_return. destruct (c_end O k) as [[u|x] k1]; now right. }
      unfold c_parse. cbv zeta. destruct (Z.eqb len 0); [destruct (querydict reg _ None true); now right|].
      destruct (c_raw O len hs) as [[[x|]|x] k]; try now right. destruct (querydict reg _ None true) as [qd|qe]; [|now right].
      assert (HL : L1 (ls_init (mkCI r csize) None) (ls_init (mkCI s csize) None)) by now exists (mkCI r csize), (mkCI s csize).
      destruct (cloop_up fuel (mkC core0 [] [] (map (fun _ => 0) k) k) _ _ HL) as [E|[E H1]];
        destruct (c_loop rd1 reg name2cp st D fuel O truthy fuel (mkC core0 [] [] (map (fun _ => 0) k) k) (ls_init (mkCI r csize) None)) as [[r1 p1] s1],
                 (c_loop rd2 reg name2cp st D fuel O truthy fuel (mkC core0 [] [] (map (fun _ => 0) k) k) (ls_init (mkCI s csize) None)) as [[r2 p2] t1];
        cbn [fst snd] in *; [left; now rewrite E|]. injection E as <- <-.
      assert (HI : J (input_of r s1) (input_of s t1)) by (destruct H1 as (c & d & -> & -> & _ & H1); exact H1).
      assert (HE : forall k2, cup J (match exh1 (input_of r s1) with (Err e, a) => (Bad (CExn e), k2, a) | (Ok _, a) => c_return O p1 k2 a end)
                                    (match exh2 (input_of s t1) with (Err e, a) => (Bad (CExn e), k2, a) | (Ok _, a) => c_return O p1 k2 a end)).
      { intros k2. destruct (HX _ _ HI) as [E|[E H2]]; destruct (exh1 (input_of r s1)) as [[u|e] a], (exh2 (input_of s t1)) as [[v|e2] b];
          cbn [fst snd] in *; try discriminate E; try (left; cbn; congruence); try injection E as <-; [now apply HR|now right]. }
      destruct r1 as [u1|[e| |reset|]]; try (now right); [apply HE|].
      destruct (c_close O (c_hs p1)) as [[u|x] k2]; [|now right]. destruct reset; [now apply HR|apply HE].
    Qed.
  End Parser.
End Upto.
