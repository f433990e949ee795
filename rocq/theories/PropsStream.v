(** * Theorems C01-C05: LazyStream and ChunkIter *)
From Verif Require Import Py Spec PyFacts StreamModel StreamSpec StreamFacts.

(** ** C01.  Whatever producer feeds it, a LazyStream behaves like the byte string
    the producer delivers, with a cursor: for every sequence of operations the
    results are those of [cur_run], up to the first guard exception (C02). *)
Theorem C01_stream_is_cursor :
  forall (P : Type) (pnext : P -> nxt * P) (p : P) (cs : list str) (q : P),
    yields pnext p cs None q ->
    forall (L : option Z) (ops : list sop) (fuel : nat), length cs + 3 <= fuel ->
    exists pre fin,
      cur_run (In [] cs) L (concat cs, 0%Z) (firstn (length pre) ops) pre fin /\
      (fst (run_until pnext fuel ops (ls_init p L)) = pre /\ length pre = length ops \/
       fst (run_until pnext fuel ops (ls_init p L)) = pre ++ [RExn SuspiciousMultipartForm]
         /\ length pre < length ops).
Proof. exact (@stream_is_cursor). Qed.
Print Assumptions C01_stream_is_cursor.

(** The stream the parser builds: LazyStream(ChunkIter(source, n)) over any source
    that delivers [src_bytes s] without failing, however the source cuts it up. *)
Theorem C01_chunked_source_is_cursor :
  forall (s : src) (n : nat), 0 < n -> src_error s = None ->
  forall (ops : list sop), exists fuel0, forall fuel, fuel0 <= fuel -> exists pre fin,
      cur_run False None (src_bytes s, 0%Z) (firstn (length pre) ops) pre fin /\
      (fst (run_until (ci_next src_read) fuel ops (ls_init (mkCI s n) None)) = pre
         /\ length pre = length ops \/
       fst (run_until (ci_next src_read) fuel ops (ls_init (mkCI s n) None))
         = pre ++ [RExn SuspiciousMultipartForm] /\ length pre < length ops).
Proof.
  intros s n Hn Hs ops.
  destruct (chunkiter_yields s n Hn) as (cs & q & Hy & Hc & HF); [now rewrite Hs|].
  rewrite Hs in Hy. exists (length cs + 3). intros fuel Hf.
  destruct (stream_is_cursor (ci_next src_read) _ cs q Hy None ops fuel Hf) as (pre & fin & Hr & Hd).
  exists pre, fin. split; [|exact Hd]. rewrite <- Hc.
  assert (HE : In [] cs -> False).
  { intros Hin. rewrite Forall_forall in HF. specialize (HF _ Hin). cbn in HF. lia. }
  exact (cur_run_weaken _ _ _ _ _ _ _ HE Hr).
Qed.
Print Assumptions C01_chunked_source_is_cursor.

Example C01_case :
  fst (run_until (ci_next src_read) 20
        [ORead (Some 2%Z); OUnget !"xy"; ONext; OTell; ORead (Some 3%Z); ORead None; ONext; OTell]
        (ls_init (mkCI [SData !"ab"; SData []; SData !"cdefg"] 3) None))
  = [RBytes !"ab"; RUnit; RBytes !"xy"; RPos 2%Z; RBytes !"cde"; RBytes !"fg"; RStop; RPos 7%Z].
Proof. vm_compute. reflexivity. Qed.

(** ** C02.  For every sequence of [next]/[unget]/[tell] on any producer, [unget]
    raises exactly when its size makes up more than 40 of the last 50 pushbacks
    since the producer last delivered data; nothing else raises the guard. *)
Theorem C02_guard_exact :
  forall (P : Type) (pnext : P -> nxt * P), quiet pnext ->
  forall (fuel : nat) (ops : list sop), Forall prim ops ->
  forall (p : P) (L : option Z),
    guarded ghost0 ops (fst (run_ops pnext fuel ops (ls_init p L))).
Proof.
  intros P pnext HQ fuel ops Hops p L. apply guarded_run; [exact HQ|exact Hops|]. now split.
Qed.
Print Assumptions C02_guard_exact.

(** [read(n)] is itself such a sequence, so the characterisation covers it. *)
Theorem C02_read_is_primitive_operations :
  forall (P : Type) (pnext : P -> nxt * P) (fuel n : nat) (m : Z) (s : lstream P),
  exists ops, Forall prim ops /\
    snd (run_ops pnext fuel ops s) = snd (ls_read pnext n (Some m) s) /\
    (fst (ls_read pnext n (Some m) s) = Err SuspiciousMultipartForm ->
     exists rs, fst (run_ops pnext fuel ops s) = rs ++ [RExn SuspiciousMultipartForm]).
Proof. intros. apply (@read_loop_prims P pnext fuel n m [] s). Qed.
Print Assumptions C02_read_is_primitive_operations.

(** 40 equal pushbacks are accepted, the 41st raises. *)
Definition c02_ops (k : nat) : list sop :=
  ONext :: concat (repeat [OUnget !"b"; ONext] k).
Example C02_case :
  count_occ Bool.bool_dec
    (map (fun r => match r with RExn SuspiciousMultipartForm => true | _ => false end)
      (fst (run_ops (ci_next src_read) 9 (c02_ops 40) (ls_init (mkCI [SData !"ab"] 8) None)))) true = 0
  /\ count_occ Bool.bool_dec
    (map (fun r => match r with RExn SuspiciousMultipartForm => true | _ => false end)
      (fst (run_ops (ci_next src_read) 9 (c02_ops 41) (ls_init (mkCI [SData !"ab"] 8) None)))) true = 1
  /\ Forall prim (c02_ops 41).
Proof.
  split; [|split]; [vm_compute; reflexivity..|].
  apply Forall_forall. intros o Ho. vm_compute in Ho. repeat (destruct Ho as [<-|Ho]; [exact I|]). easy.
Qed.

(** ** C03.  Any mixture of [read], [next] and [tell] - no caller pushback - never
    trips the guard, whatever the sizes and the producer. *)
Theorem C03_reading_never_trips_guard :
  forall (P : Type) (pnext : P -> nxt * P), quiet pnext ->
  forall (fuel : nat) (ops : list sop), Forall reading ops ->
  forall (p : P) (L : option Z),
    ~ In (RExn SuspiciousMultipartForm) (fst (run_ops pnext fuel ops (ls_init p L))).
Proof.
  intros P pnext HQ fuel ops Hops p L. apply reading_never_stuck; [exact HQ|exact Hops|].
  split; constructor.
Qed.
Print Assumptions C03_reading_never_trips_guard.

(** one hundred single-byte reads of one chunk: a pushback each, never stuck *)
Example C03_case :
  let ops := repeat (ORead (Some 1%Z)) 100 in
  Forall reading ops /\
  fst (run_ops (ci_next src_read) 9 ops (ls_init (mkCI [SData (repeat 65%N 100)] 200) None))
  = repeat (RBytes [65%N]) 100.
Proof.
  split; [|vm_compute; reflexivity].
  apply Forall_forall. intros o Ho. apply repeat_spec in Ho. now subst.
Qed.

(** ** C04.  ChunkIter cuts what the source delivers into non-empty pieces of at
    most [n] bytes; nothing is lost, added or reordered, and a failure of the
    source surfaces after all bytes delivered before it. *)
Theorem C04_chunkiter_lossless :
  forall (s : src) (n : nat), 0 < n -> src_error s <> Some InputStreamExhausted ->
  exists cs q,
    yields (ci_next src_read) (mkCI s n) cs (src_error s) q /\
    concat cs = src_bytes s /\ Forall (fun c => 1 <= length c <= n) cs.
Proof. exact chunkiter_yields. Qed.
Print Assumptions C04_chunkiter_lossless.

(** the exception a source uses to signal its end becomes StopIteration *)
Theorem C04_chunkiter_exhausted_source_stops :
  forall (s : src) (n : nat), 0 < n -> src_bytes s = [] -> src_error s = Some InputStreamExhausted ->
  fst ((ci_next src_read) (mkCI s n)) = Stop.
Proof.
  intros s n Hn Hb He. unfold ci_next. cbn [ci_flo ci_size].
  pose proof (src_read_spec n s Hn) as H. destruct (src_read n s) as [[d|e] s'].
  - destruct d; [easy|]. destruct H as [H _]. rewrite Hb in H. discriminate.
  - destruct H as [_ H]. rewrite He in H. injection H as <-. easy.
Qed.
Print Assumptions C04_chunkiter_exhausted_source_stops.

Example C04_case :
  exists q, yields (ci_next src_read) (mkCI [SData !"abcd"; SData []; SData !"e"; SFail IOError] 3)
    [!"abc"; !"d"; !"e"] (Some IOError) q
  /\ src_error [SData !"abcd"; SData []; SData !"e"; SFail IOError] <> Some InputStreamExhausted.
Proof.
  eexists. split; [|discriminate].
  do 3 (eapply y_chunk; [reflexivity|]). eapply y_fail. reflexivity.
Qed.

(** ** C05.  The documentation of [close()] says leftover bytes are still reported
    by [read()] and [next()].  That fails as soon as a read asks for more than the
    leftover: the replaced producer [[]] is not an iterator, so a TypeError is
    raised and the leftover bytes are lost. *)
Theorem C05_close_keeps_leftover_refuted :
  exists (s : lstream (chunkiter src)),
    ls_left s = !"bc" /\
    fst (ls_read (ci_next src_read) 10 (Some 3%Z) (ls_close s)) = Err TypeError /\
    fst (ls_read (ci_next src_read) 10 None (ls_close s)) = Err TypeError.
Proof.
  exists (snd (ls_read (ci_next src_read) 10 (Some 1%Z) (ls_init (mkCI [SData !"abc"] 9) None))).
  vm_compute. repeat split.
Qed.
Print Assumptions C05_close_keeps_leftover_refuted.

(** It fails for every stream, not just that one. *)
Theorem C05_read_past_leftover_raises :
  forall (P : Type) (pnext : P -> nxt * P) (s : lstream P) (n fuel : nat),
    length (ls_left s) < n -> 3 <= fuel -> ls_remaining s = None ->
    fst (ls_read pnext fuel (Some (Z.of_nat n)) (ls_close s)) = Err TypeError /\
    fst (ls_read pnext fuel None (ls_close s)) = Err TypeError.
Proof.
  intros P pnext s n fuel Hl Hf Hr.
  destruct (@closed_read_beyond P pnext s n fuel Hl Hf) as [H|H]; [exact H|contradiction].
Qed.
Print Assumptions C05_read_past_leftover_raises.

(** What does hold (reads that stay within the leftover), for every stream whose
    pushbacks all came from reading: the leftover bytes come back in order. *)
Theorem C05_close_keeps_leftover_partial :
  forall (P : Type) (pnext : P -> nxt * P) (s : lstream P) (n fuel : nat),
    0 < n -> n <= length (ls_left s) -> calm s -> 2 <= fuel ->
    fst (ls_read pnext fuel (Some (Z.of_nat n)) (ls_close s)) = Ok (firstn n (ls_left s)) /\
    fst (ls_next pnext (ls_close s)) = Chunk (ls_left s).
Proof.
  intros P pnext s n fuel H1 H2 H3 H4. split.
  - now apply closed_read_within.
  - unfold ls_next. cbn. destruct (ls_left s); [cbn in H2; lia|easy].
Qed.
Print Assumptions C05_close_keeps_leftover_partial.
Example C05_case :
  let s := snd (ls_read (ci_next src_read) 10 (Some 1%Z) (ls_init (mkCI [SData !"abc"] 9) None)) in
  ls_left s = !"bc" /\ fst (ls_read (ci_next src_read) 10 (Some 1%Z) (ls_close s)) = Ok !"b".
Proof. vm_compute. split; reflexivity. Qed.
