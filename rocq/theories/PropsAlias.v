(** * Theorems about copies of a MultiValueDict and shared lists: C108 *)
From Verif Require Import Py PyFacts PyDict MVDModel MVDSpec MVDFacts AliasModel AliasFacts.

(** the values stored under a key of the n-th dictionary *)
Definition content (w : world) (n : nat) (k : str) : option (list val) :=
  match nth_error (w_dicts w) n with
  | Some d => match dget k d with Some a => Some (hget (w_heap w) a) | None => None end
  | None => None
  end.

(** programs that neither write to dictionary [n] nor take its lists out of it; they may
    read it, copy it, and do anything to other dictionaries and to any list they hold *)
Definition leaves_alone (n : nat) : op2 -> Prop := safe_op2 (fun i => i <> n) (fun _ => True).
(** programs that write only to dictionaries from [n] on and to lists they got from
    position [v] on *)
Definition works_on (n v : nat) : op2 -> Prop := safe_op2 (fun i => n <= i) (fun j => v <= j).

Lemma content_view w n d k : nth_error (w_dicts w) n = Some d -> content w n k = view (w_heap w) d k.
Proof. intros H. unfold content, view. rewrite H. now destruct (dget k d). Qed.

Lemma copy_step p w i d o w1 x : run2 p empty_world = Some w -> nth_error (w_dicts w) i = Some d ->
  o = Base (CopyDict i) \/ o = DeepCopy i -> step2 o w = Some (w1, x) ->
  good w /\ exists h' c, fresh_copy (w_heap w) d h' c /\ w1 = mkW h' (w_dicts w ++ [c]) (w_vars w).
Proof.
  intros Hp Hd Ho Hs. pose proof (run2_good _ _ _ good_empty Hp) as G. split; [exact G|].
  destruct (proj1 G i d Hd) as [B W]. destruct Ho as [-> | ->]; cbn [step2 step] in Hs; rewrite Hd in Hs.
  - pose proof (mv_copy_fresh _ _ B W) as F. destruct (mv_copy (w_heap w) d) as [h' c]. injection Hs as <- <-. eauto.
  - pose proof (mv_deepcopy_fresh _ _ B W) as F. destruct (mv_deepcopy d [] (w_heap w) []) as [h' c].
    injection Hs as <- <-. eauto.
Qed.

Theorem C108_copy_independent :
  forall p w i d o w1 x p2 w2,
  run2 p empty_world = Some w -> nth_error (w_dicts w) i = Some d ->
  o = Base (CopyDict i) \/ o = DeepCopy i -> step2 o w = Some (w1, x) ->
  let n := length (w_dicts w) in
  Forall (leaves_alone n) p2 -> run2 p2 w1 = Some w2 ->
  forall k, content w2 n k = content w i k.
Proof.
  intros p w i d o w1 x p2 w2 Hp Hd Ho Hs n HF Hr k.
  destruct (copy_step p w i d o w1 x Hp Hd Ho Hs) as (G & h' & c & (F1 & F2 & F3 & F4 & F5) & ->).
  set (P := fun a => length (w_heap w) <= a < length h').
  assert (Hn : nth_error (w_dicts w ++ [c]) n = Some c).
  { unfold n. rewrite nth_error_app2 by lia. now rewrite Nat.sub_diag. }
  assert (HA : apart P (fun i => i <> n) (fun _ => True) (mkW h' (w_dicts w ++ [c]) (w_vars w))).
  { split; [|split; [|split]]; cbn [w_heap w_dicts w_vars].
    + split.
      * intros j dj Hj. cbn [w_heap w_dicts] in *. apply nth_snoc in Hj as [Hj|[-> ->]].
        -- destruct (proj1 G j dj Hj) as [B W]. split; [|easy]. intros a Ha. apply B in Ha. lia.
        -- split; [|easy]. intros a Ha. now apply F2 in Ha.
      * intros a Ha. cbn [w_heap w_vars] in *. apply (proj2 G) in Ha. lia.
    + unfold P. lia.
    + intros j dj a Hj Hdj Ha HP. apply nth_snoc in Hdj as [Hdj|[-> ->]]; [|now apply Hj].
      destruct (proj1 G j dj Hdj) as [B _]. apply B in Ha. unfold P in HP. lia.
    + intros j a _ Hja HP. apply nth_error_In in Hja. apply (proj2 G) in Hja. unfold P in HP. lia. }
  destruct (run2_apart _ _ _ p2 _ w2 HA HF Hr) as [_ (K1 & K2 & _)].
  cbn [w_heap w_dicts] in *. rewrite (content_view _ _ c) by (apply K2; [lia|exact Hn]).
    rewrite (content_view w i d k Hd). rewrite <- F5. unfold view. destruct (dget k c) as [a|] eqn:Ea; [|easy].
    cbn [option_map]. f_equal. apply K1. unfold P. apply F2. now apply owns_dget in Ea.
Qed.
Print Assumptions C108_copy_independent.

Theorem C108_original_independent :
  forall p w i d o w1 x p2 w2,
  run2 p empty_world = Some w -> nth_error (w_dicts w) i = Some d ->
  o = Base (CopyDict i) \/ o = DeepCopy i -> step2 o w = Some (w1, x) ->
  let n := length (w_dicts w) in
  Forall (works_on n (length (w_vars w))) p2 -> run2 p2 w1 = Some w2 ->
  forall j k, j < n -> content w2 j k = content w j k.
Proof.
  intros p w i d o w1 x p2 w2 Hp Hd Ho Hs n HF Hr j k Hj.
  destruct (copy_step p w i d o w1 x Hp Hd Ho Hs) as (G & h' & c & (F1 & F2 & F3 & F4 & F5) & ->).
  set (P := fun a => a < length (w_heap w)).
  assert (HA : apart P (fun i => n <= i) (fun j => length (w_vars w) <= j) (mkW h' (w_dicts w ++ [c]) (w_vars w))).
  { split; [|split; [|split]]; cbn [w_heap w_dicts w_vars].
    + split.
      * intros j' dj Hj'. cbn [w_heap w_dicts] in *. apply nth_snoc in Hj' as [Hj'|[-> ->]].
        -- destruct (proj1 G j' dj Hj') as [B W]. split; [|easy]. intros a Ha. apply B in Ha. lia.
        -- split; [|easy]. intros a Ha. now apply F2 in Ha.
      * intros a Ha. cbn [w_heap w_vars] in *. apply (proj2 G) in Ha. lia.
    + unfold P. lia.
    + intros j' dj a Hj' Hdj Ha HP. apply nth_snoc in Hdj as [Hdj|[-> ->]].
      * apply nth_some_lt in Hdj. unfold n in Hj'. lia.
      * apply F2 in Ha. unfold P in HP. lia.
    + intros j' a Hj' Hja. apply nth_some_lt in Hja. lia. }
  destruct (run2_apart _ _ _ p2 _ w2 HA HF Hr) as [_ (K1 & K2 & _)].
  cbn [w_heap w_dicts] in *. destruct (nth_some_ex (w_dicts w) j Hj) as [dj Hdj].
    assert (Hdj1 : nth_error (w_dicts w ++ [c]) j = Some dj) by (rewrite nth_error_app1; easy).
    rewrite (content_view w2 j dj) by (apply K2; [lia|exact Hdj1]). rewrite (content_view w j dj k Hdj).
    unfold view. destruct (dget k dj) as [a|] eqn:Ea; [|easy]. cbn [option_map]. f_equal.
    destruct (proj1 G j dj Hdj) as [B _]. apply owns_dget in Ea. apply B in Ea. rewrite K1 by exact Ea. now apply F3.
Qed.
Print Assumptions C108_original_independent.

(** the example: one list of the caller stored under two keys, a deep copy, then the
    list is changed, the original cleared, and the copy read *)
Definition ex_before : list op2 :=
  [Base (NewList [VAtom !"1"]); NewFrom [(!"a", 0); (!"b", 0)]; Base (AppendList 0 !"b" (VAtom !"2"))].
Definition ex_after : list op2 :=
  [Base (Mutate 0 (fun _ => [])); Base (Clear 0); Base (NewDict); Base (UpdateMVD 2 1); Base (SetItem 2 !"a" VNone);
   GetListOr 1 !"zz" 0; Base (GetList 1 !"a"); Base (Mutate 2 (fun _ => []))].
Example C108_case :
  (exists w w1 w2, run2 ex_before empty_world = Some w /\ run2 [DeepCopy 0] w = Some w1 /\
    Forall (leaves_alone 1) ex_after /\ run2 ex_after w1 = Some w2 /\
    content w 0 !"a" = Some [VAtom !"1"; VAtom !"2"] /\ content w2 1 !"a" = Some [VAtom !"1"; VAtom !"2"] /\
    content w2 0 !"a" = None) /\
  (exists w w1 w2, run2 ex_before empty_world = Some w /\ run2 [Base (CopyDict 0)] w = Some w1 /\
    Forall (works_on 1 1) [ListsOf 1; Base (Mutate 1 (fun _ => [])); Base (Clear 1)] /\
    run2 [ListsOf 1; Base (Mutate 1 (fun _ => [])); Base (Clear 1)] w1 = Some w2 /\
    content w2 0 !"a" = Some [VAtom !"1"; VAtom !"2"]).
Proof.
  split.
  - do 3 eexists. split; [vm_compute; reflexivity|]. split; [vm_compute; reflexivity|]. split.
    { unfold ex_after, leaves_alone. repeat (apply Forall_cons; [cbn; try exact I; lia|]). apply Forall_nil. }
    split; [vm_compute; reflexivity|]. split; [vm_compute; reflexivity|]. split; vm_compute; reflexivity.
  - do 3 eexists. split; [vm_compute; reflexivity|]. split; [vm_compute; reflexivity|]. split.
    { unfold works_on. repeat (apply Forall_cons; [cbn; try exact I; lia|]). apply Forall_nil. }
    split; vm_compute; reflexivity.
Qed.

(** what is missing: lists are shared with the caller by the constructor, by lists()
    and by setlistdefault(), so that a dictionary changes without being named *)
Theorem C108_shared_refuted :
  (exists w w', run2 [Base (NewList [VAtom !"1"]); NewFrom [(!"a", 0)]] empty_world = Some w /\
     run2 [Base (Mutate 0 (fun _ => []))] w = Some w' /\ content w 0 !"a" <> content w' 0 !"a") /\
  (exists w w', run2 [Base NewDict; Base (SetItem 0 !"a" VNone); ListsOf 0] empty_world = Some w /\
     run2 [Base (Mutate 0 (fun _ => []))] w = Some w' /\ content w 0 !"a" <> content w' 0 !"a") /\
  (exists w w', run2 [Base NewDict; ListDefault 0 !"a" (POne (VAtom !"1"))] empty_world = Some w /\
     run2 [Base (Mutate 0 (fun _ => []))] w = Some w' /\ content w 0 !"a" <> content w' 0 !"a").
Proof.
  split; [|split]; do 2 eexists; (split; [vm_compute; reflexivity|]); (split; [vm_compute; reflexivity|]);
    vm_compute; discriminate.
Qed.
Print Assumptions C108_shared_refuted.

(** in general: after each of the three, in every state a program can reach, whatever the
    caller does to the list happens to the dictionary *)
Lemma mutate_shared w i d k a j g : good w -> nth_error (w_dicts w) i = Some d -> dget k d = Some a -> nth_error (w_vars w) j = Some a ->
  content w i k = Some (hget (w_heap w) a) /\
  exists w', run2 [Base (Mutate j g)] w = Some w' /\ content w' i k = Some (g (hget (w_heap w) a)).
Proof.
  intros G Hd Hk Hj. split; [unfold content; now rewrite Hd, Hk|].
  cbn [run2 step2 step]. rewrite Hj. eexists. split; [reflexivity|]. unfold content. cbn [w_dicts w_heap]. rewrite Hd, Hk.
  rewrite hget_hset_same; [reflexivity|]. apply (proj2 G). now apply nth_error_In in Hj.
Qed.
Lemma setlistdefault_stored k p h d a h' d' : mv_setlistdefault k p h d = (a, (h', d')) -> dget k d' = Some a.
Proof.
  unfold mv_setlistdefault, mv_setlist, halloc, dmem. destruct (dget k d) as [b|] eqn:E; cbn iota.
  - rewrite E. now intros [= <- _ <-].
  - destruct p; rewrite dget_dset_same; now intros [= <- _ <-]; rewrite dget_dset_same.
Qed.
Theorem C108_shared_all_refuted :
  forall p w g, run2 p empty_world = Some w ->
  (forall k j w1 x, step2 (NewFrom [(k, j)]) w = Some (w1, x) ->
     exists l w2, content w1 (length (w_dicts w)) k = Some l /\ run2 [Base (Mutate j g)] w1 = Some w2 /\
       content w2 (length (w_dicts w)) k = Some (g l)) /\
  (forall i d m k a w1 x, nth_error (w_dicts w) i = Some d -> nth_error d m = Some (k, a) -> step2 (ListsOf i) w = Some (w1, x) ->
     exists l w2, content w i k = Some l /\ run2 [Base (Mutate (length (w_vars w) + m) g)] w1 = Some w2 /\ content w2 i k = Some (g l)) /\
  (forall i k q w1 x, step2 (ListDefault i k q) w = Some (w1, x) ->
     exists l w2, content w1 i k = Some l /\ run2 [Base (Mutate (length (w_vars w)) g)] w1 = Some w2 /\ content w2 i k = Some (g l)).
Proof.
  intros p w g Hp. pose proof (run2_good _ _ _ good_empty Hp) as G.
  assert (S : forall o w1 x, step2 o w = Some (w1, x) -> good w1).
  { intros o w1 x E. apply (run2_good [o] w); [exact G|]. cbn [run2]. now rewrite E. }
  split; [|split].
  - intros k j w1 x E. pose proof (S _ _ _ E) as G1. cbn [step2 addrs_of] in E. destruct (nth_error (w_vars w) j) as [a|] eqn:Ej; [|easy].
    injection E as <- _. set (w1 := mkW _ _ _) in *.
    destruct (mutate_shared w1 (length (w_dicts w)) [(k, a)] k a j g G1) as (H1 & w2 & H2 & H3).
    + unfold w1. cbn [w_dicts]. rewrite nth_error_app2, Nat.sub_diag by lia. reflexivity.
    + cbn. now rewrite seqb_refl.
    + exact Ej.
    + exists (hget (w_heap w1) a), w2. auto.
  - intros i d m k a w1 x Hd Hm E. pose proof (S _ _ _ E) as G1. cbn [step2] in E. rewrite Hd in E. injection E as <- _. set (w1 := mkW _ _ _) in *.
    assert (Hk : dget k d = Some a).
    { apply dget_In; [exact (proj2 (proj1 G i d Hd))|]. now apply nth_error_In in Hm. }
    destruct (mutate_shared w1 i d k a (length (w_vars w) + m) g G1) as (H1 & w2 & H2 & H3).
    + exact Hd.
    + exact Hk.
    + unfold w1. cbn [w_vars]. rewrite nth_error_app2 by lia. replace (length (w_vars w) + m - length (w_vars w)) with m by lia.
      rewrite nth_error_map, Hm. reflexivity.
    + exists (hget (w_heap w1) a), w2. split; [|auto]. unfold content. now rewrite Hd, Hk.
  - intros i k q w1 x E. pose proof (S _ _ _ E) as G1. cbn [step2] in E. destruct (nth_error (w_dicts w) i) as [d|] eqn:Hd; [|easy].
    destruct (larg_of q w) as [q'|]; [|easy]. destruct (mv_setlistdefault k q' (w_heap w) d) as [a [h' d']] eqn:Es. injection E as <- _. set (w1 := mkW _ _ _) in *.
    destruct (mutate_shared w1 i d' k a (length (w_vars w)) g G1) as (H1 & w2 & H2 & H3).
    + unfold w1. cbn [w_dicts]. apply nth_set_same. now apply nth_some_lt in Hd.
    + now apply setlistdefault_stored in Es.
    + unfold w1. cbn [w_vars]. rewrite nth_error_app2, Nat.sub_diag by lia. reflexivity.
    + exists (hget (w_heap w1) a), w2. auto.
Qed.
Print Assumptions C108_shared_all_refuted.
Example C108_shared_all_case :
  exists w w1, run2 ex_before empty_world = Some w /\ run2 [ListsOf 0; Base (Mutate 2 (fun l => l ++ [VNone]))] w = Some w1 /\
    content w 0 !"b" = Some [VAtom !"1"; VAtom !"2"] /\ content w1 0 !"b" = Some [VAtom !"1"; VAtom !"2"; VNone].
Proof. do 2 eexists. split; [vm_compute; reflexivity|]. split; [vm_compute; reflexivity|]. split; vm_compute; reflexivity. Qed.

(** and a dictionary cannot be pickled *)
Theorem C108_pickle_refuted :
  forall w i d, nth_error (w_dicts w) i = Some d -> step2 (Pickle i) w = Some (w, OutErr TypeError).
Proof. intros w i d H. cbn. now rewrite H. Qed.
Print Assumptions C108_pickle_refuted.
