(** * What an operation does to the request stream: only a prefix of what is pending disappears *)
From Verif Require Import Py PyFacts PyDict StreamModel CodecModel Base64Model QueryModel HeadModel HeaderModel BoundaryModel UploadModel
  MultipartModel RequestModel.

(** ** Reading moves the innermost object forward only *)
Section Forward.
  Context {P : Type} (pnext : P -> nxt * P) (le : P -> P -> Prop).
  Context (le_refl : forall p, le p p) (le_trans : forall p q r, le p q -> le q r -> le p r).
  Context (le_next : forall p, le p (snd (pnext p))).

  Definition sle (s s' : lstream P) : Prop :=
    match ls_prod s, ls_prod s' with Some p, Some p' => le p p' | None, None => True | _, _ => False end.
  Lemma sle_refl s : sle s s.
  Proof. unfold sle. now destruct (ls_prod s). Qed.
  Lemma sle_trans a b c : sle a b -> sle b c -> sle a c.
  Proof.
    unfold sle. destruct (ls_prod a), (ls_prod b), (ls_prod c); try easy. apply le_trans.
  Qed.
  Lemma sle_next s : sle s (snd (ls_next pnext s)).
  Proof.
    unfold sle, ls_next. destruct (ls_left s); [|cbn; now destruct (ls_prod s)].
    destruct (ls_prod s) as [p|] eqn:E; [|cbn; now rewrite E].
    pose proof (le_next p) as H. destruct (pnext p) as [[c| |e] p']; exact H.
  Qed.
  Lemma sle_unget b s : sle s (snd (ls_unget b s)).
  Proof.
    unfold ls_unget. destruct b; [apply sle_refl|]. destruct (Nat.ltb _ _); unfold sle; cbn; now destruct (ls_prod s).
  Qed.
  Lemma sle_read_loop : forall fuel n out s, sle s (snd (ls_read_loop pnext fuel n out s)).
  Proof.
    induction fuel as [|fuel IH]; intros n out s; cbn [ls_read_loop]; [apply sle_refl|].
    destruct (Z.eqb n 0); [apply sle_refl|]. destruct (Z.ltb n 0); [apply sle_refl|].
    pose proof (sle_next s) as H. destruct (ls_next pnext s) as [[c| |e] s1]; [|exact H|exact H].
    pose proof (sle_unget (skipn (Z.to_nat n) c) s1) as H2.
    destruct (ls_unget (skipn (Z.to_nat n) c) s1) as [[[]|e] s2]; cbn [snd] in *.
    - eapply sle_trans; [exact H|]. eapply sle_trans; [exact H2|]. apply IH.
    - eapply sle_trans; eassumption.
  Qed.
  Lemma sle_join : forall fuel out s, sle s (snd (ls_join pnext fuel out s)).
  Proof.
    induction fuel as [|fuel IH]; intros out s; cbn [ls_join]; [apply sle_refl|].
    pose proof (sle_next s) as H. destruct (ls_next pnext s) as [[c| |e] s1]; [|exact H|exact H].
    eapply sle_trans; [exact H|]. apply IH.
  Qed.
  Lemma sle_read fuel size s : sle s (snd (ls_read pnext fuel size s)).
  Proof.
    unfold ls_read. destruct (match size with Some n => Some n | None => ls_remaining s end);
      [apply sle_read_loop|apply sle_join].
  Qed.

  (** BoundaryIter *)
  Definition ble (b b' : biter P) : Prop := sle (bi_stream b) (bi_stream b').
  Lemma sle_collect : forall fuel rb n acc s, sle s (snd (bi_collect pnext fuel rb n acc s)).
  Proof.
    induction fuel as [|fuel IH]; intros rb n acc s; cbn [bi_collect]; [apply sle_refl|].
    pose proof (sle_next s) as H. destruct (ls_next pnext s) as [[c| |e] s1]; [|exact H|exact H].
    destruct (Nat.ltb rb (n + length c)); [exact H|]. destruct c; [exact H|].
    eapply sle_trans; [exact H|]. apply IH.
  Qed.
  Lemma ble_next fuel b : ble b (snd (bi_next pnext fuel b)).
  Proof.
    unfold bi_next, ble. destruct (bi_done b); [apply sle_refl|].
    pose proof (sle_collect fuel (rollback (bi_boundary b)) 0 [] (bi_stream b)) as H.
    destruct (bi_collect pnext fuel (rollback (bi_boundary b)) 0 [] (bi_stream b)) as [[[chunks ended]|e] s1]; [|exact H].
    cbn [snd] in H. destruct chunks as [|c0 chunks]; [exact H|].
    destruct (find_boundary (bi_boundary b) (concat (c0 :: chunks))) as [[e next]|].
    - pose proof (sle_unget (skipn next (concat (c0 :: chunks))) s1) as H2.
      destruct (ls_unget (skipn next (concat (c0 :: chunks))) s1) as [[u|x] s2]; cbn [snd bi_stream] in *;
        eapply sle_trans; eassumption.
    - destruct (upto_neg (rollback (bi_boundary b)) (concat (c0 :: chunks))) as [|y ys]; [exact H|].
      pose proof (sle_unget (from_neg (rollback (bi_boundary b)) (concat (c0 :: chunks))) s1) as H2.
      destruct (ls_unget (from_neg (rollback (bi_boundary b)) (concat (c0 :: chunks))) s1) as [[u|x] s2]; cbn [snd bi_stream] in *;
        eapply sle_trans; eassumption.
  Qed.
  Lemma sle_bi_init fuel s D : sle s (snd (bi_init pnext fuel s D)) /\
    forall b s1, bi_init pnext fuel s D = (Ok b, s1) -> bi_stream b = s1.
  Proof.
    unfold bi_init. pose proof (sle_read fuel (Some 1%Z) s) as H.
    destruct (ls_read pnext fuel (Some 1%Z) s) as [[c|e] s1]; cbn [snd] in H; [|split; [exact H|easy]].
    destruct c as [|c0 c]; [split; [exact H|easy]|].
    pose proof (sle_unget (c0 :: c) s1) as H2.
    destruct (ls_unget (c0 :: c) s1) as [[u|e] s2]; cbn [snd] in *.
    - split; [eapply sle_trans; eassumption|]. intros b s3 [= <- <-]. reflexivity.
    - split; [eapply sle_trans; eassumption|easy].
  Qed.
End Forward.

Section Parser.
  Context {R : Type} (rd : nat -> R -> res str * R) (exh : R -> res unit * R).
  Context (reg : registry) (name2cp : str -> option N) (mk_temp : str -> res unit).
  Context (st : mset) (D : str) (fuel : nat).
  Context (le : R -> R -> Prop) (le_refl : forall p, le p p) (le_trans : forall p q r, le p q -> le q r -> le p r).
  Context (le_rd : forall n r, le r (snd (rd n r))) (le_exh : forall r, le r (snd (exh r))).

  Definition cle (a b : chunkiter R) : Prop := le (ci_flo a) (ci_flo b).
  Lemma cle_refl a : cle a a. Proof. apply le_refl. Qed.
  Lemma cle_trans a b c : cle a b -> cle b c -> cle a c. Proof. apply le_trans. Qed.
  Lemma cle_next a : cle a (snd (ci_next rd a)).
  Proof.
    unfold cle, ci_next. pose proof (le_rd (ci_size a) (ci_flo a)) as H.
    destruct (rd (ci_size a) (ci_flo a)) as [[[|c d]|e] s]; try exact H. destruct e; exact H.
  Qed.
  Notation pn1 := (ci_next rd).
  Notation pn2 := (bi_next pn1 fuel).
  Notation le1 := (sle cle).
  Notation le2 := (sle (ble cle)).
  Let r1 := sle_refl cle cle_refl.
  Let t1 := sle_trans cle cle_trans.
  Lemma ble_refl b : ble cle b b. Proof. apply r1. Qed.
  Lemma ble_trans a b c : ble cle a b -> ble cle b c -> ble cle a c. Proof. apply t1. Qed.
  Let r2 := sle_refl (ble cle) ble_refl.
  Let t2 := sle_trans (ble cle) ble_trans.
  Let bn := ble_next pn1 cle cle_refl cle_trans cle_next fuel.
  Let rd2 := sle_read pn2 (ble cle) ble_refl ble_trans bn.
  Let nx2 := sle_next pn2 (ble cle) ble_refl bn.
  Let un2 := sle_unget (ble cle) ble_refl.

  Lemma fwd_head s : le2 s (snd (parse_boundary_stream rd reg fuel s)).
  Proof.
    unfold parse_boundary_stream. pose proof (rd2 fuel (Some MAX_PART_HEADER) s) as H.
    destruct (ls_read pn2 fuel (Some MAX_PART_HEADER) s) as [[chunk|e] s1]; cbn [snd] in H; [|exact H].
    destruct (find crlfcrlf chunk) as [i|].
    - pose proof (un2 (skipn (i + 4) chunk) s1) as H1.
      destruct (ls_unget (skipn (i + 4) chunk) s1) as [[u|e] s2]; cbn [snd] in H1; [|eapply t2; eassumption].
      destruct (header_meta reg (split crlf (firstn i chunk)) RAW []) as [[[] m]|e]; try (eapply t2; eassumption).
      pose proof (un2 chunk s2) as H2. destruct (ls_unget chunk s2) as [[u2|e] s3]; cbn [snd] in *;
        (eapply t2; [exact H|eapply t2; eassumption]).
    - pose proof (un2 chunk s1) as H1. destruct (ls_unget chunk s1) as [[u|e] s2]; cbn [snd] in *; eapply t2; eassumption.
  Qed.
  Lemma fwd_field name tenc m p s : le2 s (snd (read_field rd reg st fuel name tenc m p s)).
  Proof.
    unfold read_field. match goal with |- context [if ?b then _ else _] => destruct b end; [apply r2|].
    match goal with |- context [ls_read _ _ ?size s] => pose proof (rd2 fuel size s) as H; destruct (ls_read pn2 fuel size s) as [[raw|e] s1] end;
      cbn [snd] in H; [|exact H].
    match goal with |- context [match ?x with Ok _ => _ | Err _ => _ end] => destruct x as [data|e] end; [|exact H].
    match goal with |- context [if ?b then _ else _] => destruct b end; [exact H|].
    match goal with |- context [match ?x with Some v => v | None => _ end] => destruct (match x with Some v => v | None => ([], []) end) as [ct extra] end.
    match goal with |- context [match ?x with Ok _ => _ | Err _ => _ end] => destruct x end; exact H.
  Qed.
  Lemma fwd_fill : forall n acc s, le2 s (snd (b64_fill rd fuel n acc s)).
  Proof.
    induction n as [|n IH]; intros acc s; cbn [b64_fill]; [apply r2|].
    destruct (Nat.eqb _ 0); [apply r2|].
    match goal with |- context [ls_read _ _ ?size s] => pose proof (rd2 fuel size s) as H; destruct (ls_read pn2 fuel size s) as [[raw|e] s1] end;
      cbn [snd] in H; [|exact H]. eapply t2; [exact H|apply IH].
  Qed.
  Lemma fwd_loop : forall n b64 hs cs s, le2 s (snd (file_loop rd mk_temp st fuel n b64 hs cs s)).
  Proof.
    induction n as [|n IH]; intros b64 hs cs s; cbn [file_loop]; [apply r2|].
    pose proof (nx2 s) as H. destruct (ls_next pn2 s) as [[c| |e] s1]; cbn [snd] in H; [|exact H|exact H].
    assert (G : forall x s2, (if b64 then match b64_fill rd fuel fuel (remove_ws c) s1 with
                     | (Ok g, s2) => (match b64decode g with Ok d => Ok d | Err _ => Err TypeError end, s2)
                     | (Err e, s2) => (Err e, s2)
                     end else (Ok c, s1)) = (x, s2) -> le2 s s2).
    { intros x s2. destruct b64; [|intros [= <- <-]; exact H].
      pose proof (fwd_fill fuel (remove_ws c) s1) as H1.
      destruct (b64_fill rd fuel fuel (remove_ws c) s1) as [[g|e] s3]; intros [= <- <-]; eapply t2; eassumption. }
    match goal with |- context [match (if b64 then ?y else ?z) with _ => _ end] => destruct (if b64 then y else z) as [[d|e] s2] end.
    - specialize (G _ _ eq_refl). destruct (feed mk_temp (ms_fmem st) d hs cs) as [[hs' cs']|e]; [|exact G].
      eapply t2; [exact G|apply IH].
    - exact (G _ _ eq_refl).
  Qed.
  Lemma fwd_file name tenc disp m p s : le2 s (snd (read_file rd name2cp mk_temp st fuel name tenc disp m p s)).
  Proof.
    unfold read_file. match goal with |- context [match ?x with Ok _ => _ | Err _ => _ end] => destruct x as [[|c f]|e] end; [apply r2| |apply r2].
    match goal with |- context [match ?x with Some v => v | None => _ end] => destruct (match x with Some v => v | None => ([], []) end) as [ct extra] end.
    destruct (new_files _ _ _) as [hs|e]; [|apply r2].
    match goal with |- context [file_loop _ _ _ _ ?n ?b ?h ?c s] => pose proof (fwd_loop n b h c s) as H;
      destruct (file_loop rd mk_temp st fuel n b h c s) as [[[hs' cs']|e] s1] end; exact H.
  Qed.
  Lemma fwd_part ty m p s : le2 s (snd (one_part rd reg name2cp mk_temp st fuel ty m p s)).
  Proof.
    unfold one_part. destruct (dget CDISP m) as [[v disp]|]; [|apply r2]. destruct (dget !"name" disp); [|apply r2].
    destruct (to_native _); [|apply r2]. destruct ty; [apply r2|apply fwd_file|apply fwd_field].
  Qed.
  Lemma outer_fwd (s1 : lstream (chunkiter R)) b s2 : bi_stream b = s1 -> le2 (ls_init b None) s2 -> le1 s1 (outer_of s1 s2).
  Proof.
    intros Hb H. unfold sle in H. cbn [ls_prod ls_init] in H. unfold outer_of.
    destruct (ls_prod s2) as [b2|]; [|easy]. unfold ble in H. now rewrite Hb in H.
  Qed.
  Lemma fwd_parts : forall n p s, le1 s (snd (parts_loop rd reg name2cp mk_temp st D fuel n p s)).
  Proof.
    induction n as [|n IH]; intros p s; cbn [parts_loop]; [apply r1|].
    destruct (sle_bi_init pn1 cle cle_refl cle_trans cle_next fuel s D) as [H Hb].
    destruct (bi_init pn1 fuel s D) as [[b|e] s1]; cbn [snd] in H; [|destruct e; exact H].
    specialize (Hb b s1 eq_refl).
    pose proof (fwd_head (ls_init b None)) as H2.
    destruct (parse_boundary_stream rd reg fuel (ls_init b None)) as [[[ty m]|e] s2]; cbn [snd] in H2.
    2:{ eapply t1; [exact H|]. eapply outer_fwd; eassumption. }
    destruct (finish_file p) as [p1|e]; [|eapply t1; [exact H|]; eapply outer_fwd; eassumption].
    pose proof (fwd_part ty m p1 s2) as H3.
    destruct (one_part rd reg name2cp mk_temp st fuel ty m p1 s2) as [[p2|e] s3]; cbn [snd] in *;
      assert (H4 : le2 (ls_init b None) s3) by (eapply t2; eassumption);
      (eapply t1; [exact H|]).
    - eapply t1; [eapply outer_fwd; eassumption|]. apply IH.
    - eapply outer_fwd; eassumption.
  Qed.
  Theorem fwd_parse csize len hs r : le r (snd (mp_parse rd exh reg name2cp mk_temp st D fuel csize len hs r)).
  Proof.
    unfold mp_parse. destruct (querydict _ _ _ _); [|apply le_refl]. destruct (Z.eqb len 0); [apply le_refl|].
    match goal with |- context [parts_loop _ _ _ _ _ _ _ ?n ?p ?s] => pose proof (fwd_parts n p s) as H;
      destruct (parts_loop rd reg name2cp mk_temp st D fuel n p s) as [[p'|e] s1] end; cbn [snd] in H;
      unfold sle in H; cbn [ls_prod ls_init] in H; unfold input_of; destruct (ls_prod s1) as [c|]; try easy.
    unfold cle in H. cbn [ci_flo] in H. pose proof (le_exh (ci_flo c)) as H2.
    destruct (exh (ci_flo c)) as [[u|e] r']; cbn [snd] in *; eapply le_trans; eassumption.
  Qed.
End Parser.

(** ** The bytes and failures that are still to come *)
Inductive cell := Byte (c : char) | Fail (e : exn).
Definition item_cells (i : item) : list cell := match i with SData d => map Byte d | SFail e => [Fail e] end.
Definition pending (s : l0) : list cell :=
  map Byte (ls_left s) ++ match ls_prod s with Some p => flat_map item_cells p | None => [] end.
Definition later (t t' : list cell) : Prop := exists u, t = u ++ t'.
Lemma later_refl t : later t t. Proof. now exists []. Qed.
Lemma later_trans a b c : later a b -> later b c -> later a c.
Proof. intros [u ->] [v ->]. exists (u ++ v). now rewrite app_assoc. Qed.
Lemma later_app u t : later (u ++ t) t. Proof. now exists u. Qed.

Lemma next_pending s : match ls_next it_next s with
  | (Chunk c, s') => pending s = map Byte c ++ pending s'
  | (Stop, s') => pending s = pending s'
  | (Raise e, s') => later (pending s) (pending s')
  end.
Proof.
  unfold ls_next, pending. destruct (ls_left s) as [|c l] eqn:E; [|reflexivity].
  destruct (ls_prod s) as [[|[d|e] p]|] eqn:Ep; cbn; [reflexivity|reflexivity|now exists [Fail e]|rewrite E, Ep; apply later_refl].
Qed.
Lemma unget_pending b (s : l0) : match ls_unget b s with
  | (Ok _, s') => pending s' = map Byte b ++ pending s
  | (Err _, s') => pending s' = pending s
  end.
Proof.
  unfold ls_unget. destruct b as [|c b]; [reflexivity|]. destruct (Nat.ltb _ _); [reflexivity|].
  unfold pending. cbn [ls_left ls_prod]. now rewrite map_app, <- app_assoc.
Qed.
Lemma loop_pending : forall fuel n out s, match ls_read_loop it_next fuel n out s with
  | (Ok d, s') => exists d', d = out ++ d' /\ pending s = map Byte d' ++ pending s'
  | (Err _, s') => later (pending s) (pending s')
  end.
Proof.
  induction fuel as [|fuel IH]; intros n out s; cbn [ls_read_loop]; [apply later_refl|].
  destruct (Z.eqb n 0); [exists []; now rewrite app_nil_r|]. destruct (Z.ltb n 0); [apply later_refl|].
  pose proof (next_pending s) as H. destruct (ls_next it_next s) as [[c| |e] s1]; [|exists []; now rewrite app_nil_r|exact H].
  pose proof (unget_pending (skipn (Z.to_nat n) c) s1) as H2.
  destruct (ls_unget (skipn (Z.to_nat n) c) s1) as [[u|e] s2].
  - specialize (IH (n - zlen (firstn (Z.to_nat n) c))%Z (out ++ firstn (Z.to_nat n) c) s2).
    assert (E : pending s = map Byte (firstn (Z.to_nat n) c) ++ pending s2).
    { rewrite H, H2, app_assoc, <- map_app, firstn_skipn. reflexivity. }
    destruct (ls_read_loop it_next fuel _ _ s2) as [[d|e] s3].
    + destruct IH as (d' & -> & IH). exists (firstn (Z.to_nat n) c ++ d'). split; [now rewrite app_assoc|].
      rewrite E, IH, map_app, app_assoc. reflexivity.
    + rewrite E. eapply later_trans; [apply later_app|exact IH].
  - rewrite H, H2. apply later_app.
Qed.
Lemma join_pending : forall fuel out s, match ls_join it_next fuel out s with
  | (Ok d, s') => exists d', d = out ++ d' /\ pending s = map Byte d' ++ pending s'
  | (Err _, s') => later (pending s) (pending s')
  end.
Proof.
  induction fuel as [|fuel IH]; intros out s; cbn [ls_join]; [apply later_refl|].
  pose proof (next_pending s) as H. destruct (ls_next it_next s) as [[c| |e] s1]; [|exists []; now rewrite app_nil_r|exact H].
  specialize (IH (out ++ c) s1). destruct (ls_join it_next fuel (out ++ c) s1) as [[d|e] s2].
  - destruct IH as (d' & -> & IH). exists (c ++ d'). split; [now rewrite app_assoc|].
    rewrite H, IH, map_app, app_assoc. reflexivity.
  - rewrite H. eapply later_trans; [apply later_app|exact IH].
Qed.
Lemma read_pending size s : match l0_read size s with
  | (Ok d, s') => pending s = map Byte d ++ pending s'
  | (Err _, s') => later (pending s) (pending s')
  end.
Proof.
  unfold l0_read, ls_read. destruct (match size with Some n => Some n | None => ls_remaining s end) as [n|].
  - pose proof (loop_pending (4 + src_items s) n [] s) as H.
    destruct (ls_read_loop it_next (4 + src_items s) n [] s) as [[d|e] s']; [|exact H]. now destruct H as (d' & -> & H).
  - pose proof (join_pending (4 + src_items s) [] s) as H.
    destruct (ls_join it_next (4 + src_items s) [] s) as [[d|e] s']; [|exact H]. now destruct H as (d' & -> & H).
Qed.
Lemma read_later size s : later (pending s) (pending (snd (l0_read size s))).
Proof.
  pose proof (read_pending size s) as H. destruct (l0_read size s) as [[d|e] s']; cbn [snd]; [|exact H].
  rewrite H. apply later_app.
Qed.
Lemma drain_later : forall n s, later (pending s) (pending (snd (ls_drain it_next n s))).
Proof.
  induction n as [|n IH]; intros s; cbn [ls_drain]; [apply later_refl|].
  pose proof (next_pending s) as H. destruct (ls_next it_next s) as [[c| |e] s1]; cbn [snd]; [|rewrite H; apply later_refl|exact H].
  rewrite H. eapply later_trans; [apply later_app|apply IH].
Qed.
Lemma frame_loop_pending : forall fuel max hdr b s t, match frame_loop fuel max hdr b s with
  | (Ok (h, rest), _, s') => t = map Byte hdr ++ pending s -> exists u, t = u ++ map Byte rest ++ pending s'
  | (Err _, _, s') => later (pending s) (pending s')
  end.
Proof.
  induction fuel as [|fuel IH]; intros max hdr b s t; cbn [frame_loop]; [apply later_refl|].
  pose proof (read_pending max s) as H. destruct (l0_read max s) as [[d|e] s1]; [|exact H].
  destruct d as [|c d]; [rewrite H; apply later_refl|].
  destruct (find crlfcrlf (hdr ++ c :: d)) as [i|].
  - intros ->. exists (map Byte (firstn (i + 4) (hdr ++ c :: d))). rewrite H, app_assoc, <- map_app.
    rewrite app_assoc, <- map_app, firstn_skipn. reflexivity.
  - specialize (IH max (hdr ++ c :: d) true s1 t). destruct (frame_loop fuel max (hdr ++ c :: d) true s1) as [[[[h rest]|e] b'] s'].
    + intros ->. apply IH. now rewrite H, map_app, app_assoc.
    + rewrite H. eapply later_trans; [apply later_app|exact IH].
Qed.
Lemma frame_later max s : later (pending s) (pending (snd (frame max s))).
Proof.
  unfold frame. pose proof (frame_loop_pending (2 + l0_total s) max [] false s (pending s)) as H.
  destruct (frame_loop (2 + l0_total s) max [] false s) as [[[[h rest]|e] b] s1]; [|exact H].
  destruct (H eq_refl) as [u ->]. pose proof (unget_pending rest s1) as H2.
  destruct (ls_unget rest s1) as [[x|e] s2]; cbn [snd]; rewrite H2; [apply later_app|].
  rewrite app_assoc. apply later_app.
Qed.

(** ** Every operation but the assignments of a stream *)
Definition keeps (w w' : world) : Prop := later (pending (r_stream (snd w))) (pending (r_stream (snd w'))).
Lemma keeps_refl w : keeps w w. Proof. apply later_refl. Qed.
Lemma keeps_trans a b c : keeps a b -> keeps b c -> keeps a c. Proof. apply later_trans. Qed.
Definition calmM {A} (m : M A) : Prop := forall w, keeps w (snd (m w)).
Lemma calm_ret {A} (a : A) : calmM (mret a). Proof. intros w. apply keeps_refl. Qed.
Lemma calm_raise {A} e : calmM (@mraise A e). Proof. intros w. apply keeps_refl. Qed.
Lemma calm_lift {A} (r : res A) : calmM (mlift r). Proof. intros w. apply keeps_refl. Qed.
Lemma calm_sett : calmM msett. Proof. intros w. apply keeps_refl. Qed.
Lemma calm_req : calmM mreq. Proof. intros w. apply keeps_refl. Qed.
Lemma calm_bind {A B} (m : M A) (f : A -> M B) : calmM m -> (forall a, calmM (f a)) -> calmM (mbind m f).
Proof.
  intros Hm Hf w. unfold mbind. specialize (Hm w). destruct (m w) as [[a|e] w1]; [|exact Hm].
  eapply keeps_trans; [exact Hm|apply Hf].
Qed.
Lemma calm_upd f : (forall r, r_stream (f r) = r_stream r) -> calmM (mupd f).
Proof. intros H w. unfold keeps, mupd. cbn [fst snd]. rewrite H. apply later_refl. Qed.
Lemma calm_stream {A} (f : l0 -> res A * l0) : (forall s, later (pending s) (pending (snd (f s)))) -> calmM (mstream f).
Proof.
  intros H w. unfold keeps, mstream. specialize (H (r_stream (snd w))). destruct (f (r_stream (snd w))) as [x s]. exact H.
Qed.

Section Ops.
  Context (reg : registry) (name2cp : str -> option N) (mk_temp : str -> res unit).
  Lemma calm_query q mut : calmM (new_query reg q mut).
  Proof. apply calm_bind; [apply calm_sett|intros; apply calm_lift]. Qed.
  Lemma calm_encoding v : calmM (set_encoding v). Proof. intros w. apply later_refl. Qed.
  Lemma calm_read n : calmM (m_read n).
  Proof.
    apply calm_stream. intros s. pose proof (read_later n s) as H. destruct (l0_read n s) as [[d|e] s1]; [exact H|].
    destruct e; exact H.
  Qed.
  Ltac calm := repeat first
    [ lazymatch goal with |- calmM (mbind _ _) => apply calm_bind; [|intros] end | apply calm_ret | apply calm_raise | apply calm_lift | apply calm_sett | apply calm_req
    | apply calm_query | apply calm_encoding | apply calm_read | (apply calm_upd; reflexivity) ].
  Lemma calm_populate l hs : calmM (populate reg l hs).
  Proof.
    unfold populate. apply calm_bind; [apply calm_lift|]. intros [host hs']. destruct (split_domain_port host). calm.
    - destruct (header _ hs'); calm.
    - match goal with |- context [snd ?x] => destruct (snd x) end; calm.
    - match goal with |- context [r_meta ?x] => destruct (r_meta x) end; calm. destruct (nonempty _); calm.
  Qed.
  Lemma calm_header : calmM (parse_request_header reg).
  Proof.
    unfold parse_request_header. apply calm_bind; [apply calm_req|]. intros r. destruct (r_hp r); [apply calm_ret|].
    apply calm_bind; [apply calm_sett|]. intros st. apply calm_bind.
    - intros w. pose proof (frame_later (s_hdr st) (r_stream (snd w))) as H.
      destruct (frame (s_hdr st) (r_stream (snd w))) as [[x b] s1]. exact H.
    - intros hdr. calm. apply calm_populate.
  Qed.
  Lemma calm_loop : forall fuel max size chunk acc, calmM (body_loop fuel max size chunk acc).
  Proof.
    induction fuel as [|fuel IH]; intros; cbn [body_loop]; [apply calm_raise|]. destruct (_ && _); [|apply calm_ret].
    apply calm_bind; [apply calm_read|]. intros c. apply IH.
  Qed.
  Lemma calm_body1 : calmM body1.
  Proof.
    unfold body1. apply calm_bind; [apply calm_req|]. intros r. destruct (_ && _); [apply calm_raise|].
    destruct (r_body r); [apply calm_ret|]. destruct (r_hp r); [|apply calm_raise]. unfold read_body. calm; [apply calm_loop|].
    destruct (within_max _ _); calm.
  Qed.
  Lemma calm_body : calmM (body reg).
  Proof.
    unfold body. apply calm_bind; [apply calm_req|]. intros r. destruct (_ || _); [apply calm_body1|].
    apply calm_bind; [apply calm_header|]. intros _. apply calm_body1.
  Qed.
  Lemma calm_empty : calmM (empty_post reg). Proof. unfold empty_post. calm. Qed.
  Lemma calm_upload : calmM (parse_file_upload reg name2cp mk_temp).
  Proof.
    unfold parse_file_upload. calm. match goal with |- context [r_meta ?x] => destruct (r_meta x) as [m|] end; [|apply calm_raise].
    destruct (m_headers m); [|apply calm_raise]. calm. apply calm_stream. intros s.
    apply (fwd_parse l0_rd l0_exh reg name2cp mk_temp _ _ _ (fun a b => later (pending a) (pending b))).
    - intros p. apply later_refl.
    - intros p q r. apply later_trans.
    - intros n r. apply read_later.
    - intros r. apply drain_later.
  Qed.
  Lemma calm_post : calmM (parse_post reg name2cp mk_temp).
  Proof.
    unfold parse_post. apply calm_bind; [apply calm_req|]. intros r. destruct (a_ctype (r_attrs r)) as [c|]; [|apply calm_raise].
    destruct (match c with Some c0 => seqb c0 CT_MULTI | None => false end).
    - intros w. pose proof (calm_upload w) as H. destruct (parse_file_upload reg name2cp mk_temp w) as [[pf|e] w1]; [exact H|].
      destruct e; try exact H. cbn [snd] in H.
      assert (G : calmM (let! _ := empty_post reg in @mraise (postv * dict (list ufile)) MultiPartParserError)) by
        (apply calm_bind; [apply calm_empty|intros; apply calm_raise]).
      eapply keeps_trans; [exact H|apply G].
    - destruct (match c with Some c0 => seqb c0 CT_FORM | None => false end).
      + calm. apply calm_body.
      + calm. apply calm_empty.
  Qed.
  (** the peek: read(1), then unget *)
  Lemma calm_parse_body : calmM (parse_request_body reg name2cp mk_temp).
  Proof.
    unfold parse_request_body. apply calm_bind; [apply calm_req|]. intros r. destruct (r_bp r); [apply calm_ret|].
    apply calm_bind; [apply calm_sett|]. intros st. apply calm_bind; [apply calm_upd; reflexivity|]. intros _.
    destruct (negb (r_hp r)); [apply calm_bind; [apply calm_empty|intros; apply calm_raise]|].
    intros w. unfold mbind at 1. unfold mstream at 1.
    pose proof (read_pending (Some 1%Z) (r_stream (snd w))) as H.
    destruct (l0_read (Some 1%Z) (r_stream (snd w))) as [[d|e] s1]; [|exact H].
    destruct d as [|c d].
    - assert (G : calmM (let! _ := empty_post reg in mret tt)) by (apply calm_bind; [apply calm_empty|intros; apply calm_ret]).
      specialize (G (fst w, set_stream s1 (snd w))). eapply keeps_trans; [|exact G].
      unfold keeps. cbn [snd set_stream r_stream]. rewrite H. apply later_app.
    - unfold mbind at 1. unfold mstream at 1. cbn [snd fst set_stream r_stream].
      pose proof (unget_pending (c :: d) s1) as H2. destruct (ls_unget (c :: d) s1) as [[u|e] s2].
      + match goal with |- keeps w (snd (?m ?w2)) => assert (G : calmM m) end.
        { calm; [apply calm_post|apply calm_body]. }
        match goal with |- keeps w (snd (_ ?w2)) => specialize (G w2) end.
        eapply keeps_trans; [|exact G]. change (later (pending (r_stream (snd w))) (pending s2)). rewrite H2, <- H. apply later_refl.
      + change (later (pending (r_stream (snd w))) (pending s2)). rewrite H, H2. apply later_app.
  Qed.

  Definition assigns (o : op) : bool := match o with OStream _ | OBodyStream _ => true | _ => false end.
  Theorem perform_keeps o : assigns o = false -> calmM (perform reg name2cp mk_temp o).
  Proof.
    destruct o; intros Ho; try discriminate Ho; unfold perform, vunit, vmap.
    - calm. apply calm_header.
    - calm. apply calm_body.
    - calm. apply calm_parse_body.
    - calm. unfold parse. calm; [apply calm_header|apply calm_parse_body].
    - calm.
    - calm.
    - unfold set_path. calm.
    - apply calm_bind; [|intros; apply calm_ret]. apply calm_upd. intros r. now destruct (nonempty s).
    - calm.
    - unfold assign_handlers. calm. match goal with |- context [r_hasfiles ?x] => destruct (r_hasfiles x) end; calm.
    - unfold get_handlers. calm. match goal with |- context [r_handlers ?x] => destruct (r_handlers x) as [[|h hs]|] end; calm.
    - intros w. apply later_refl.
  Qed.
End Ops.
