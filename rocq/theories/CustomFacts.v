(** * The whole parse with arbitrary handlers, on any source *)
From Verif Require Import Py Spec PyFacts PyDict StreamModel StreamSpec StreamFacts StreamCalm
  CodecModel QueryModel Base64Model HeaderModel
  BoundaryModel BoundarySpec BoundaryFacts PartFacts UploadModel MultipartModel MultipartSem MultipartFacts
  MultipartSpec MultipartDet CustomModel CustomInput CustomSem.

(** reading leaves a part of what was there *)
Definition rest_of (s s' : src) : Prop := src_error s' = None /\ exists u, src_bytes s = u ++ src_bytes s'.
Lemma read_rest s n r : rest_of s r -> rest_of s (snd (src_read n r)).
Proof.
  intros (H1 & u & H2). destruct n as [|n].
  - assert (HZ : forall r, src_error r = None -> src_error (snd (src_read 0 r)) = None /\ src_bytes (snd (src_read 0 r)) = src_bytes r).
    { clear. induction r as [|[[|x d]|e] r IH]; cbn; auto; easy. }
    destruct (HZ r H1) as (H3 & H4). split; [exact H3|]. exists u. now rewrite H4.
  - pose proof (src_read_spec (S n) r ltac:(lia)) as HS. destruct (src_read (S n) r) as [[[|x d]|e] r']; cbn [snd].
    + destruct HS as (H3 & H4 & ->). split; [easy|]. exists u. now rewrite H2, H3.
    + destruct HS as (H3 & H4 & _). split; [congruence|]. exists (u ++ x :: d). now rewrite <- app_assoc, <- H3.
    + destruct HS as (_ & HS). congruence.
Qed.
Lemma exhaust_ok s : src_error s = None -> it_exhaust s = (Ok tt, []).
Proof. induction s as [|[d|e] s IH]; cbn; auto; easy. Qed.

Section Whole.
  Context (reg : registry) (name2cp : str -> option N) (st : mset) (D : str) (HD : Dok D).
  Context {S F X : Type} (O : ops S F X) (truthy : F -> bool).

  Definition c_begin (hs : list S) : cst S F := mkC core0 [] [] (map (fun _ => 0) hs) hs.
  (** what [parse] makes of the outcome of the loop *)
  Definition c_result (o : cr unit * cst S F) : cr (outcome (F := F) (X := X)) * list S :=
    match o with
    | (Good _, p) => fst (c_return O p (c_hs p) tt)
    | (Bad (CStop _), p) =>
        match c_close O (c_hs p) with
        | (Bad x, hs2) => (Bad x, hs2)
        | (Good _, hs2) => fst (c_return O p hs2 tt)
        end
    | (Bad x, p) => (Bad x, c_hs p)
    end.
  Lemma return_fst {R R'} p hs (r : R) (r' : R') : fst (c_return O p hs r) = fst (c_return (S := S) (F := F) O p hs r').
  Proof. unfold c_return. now destruct (c_end O hs) as [[u|x] hs1]. Qed.
  Lemma return_snd {R} p hs (r : R) : snd (c_return (S := S) (F := F) O p hs r) = r.
  Proof. unfold c_return. now destruct (c_end O hs) as [[u|x] hs1]. Qed.

  Theorem c_parse_sem s csize len hs hs1 qd fuel : 0 < csize -> src_error s = None ->
    querydict reg (Some (ms_query st)) None true = Ok qd -> len <> 0%Z -> enough s <= fuel ->
    c_raw O len hs = (Good None, hs1) ->
    exists o, gparses reg name2cp st O truthy D (src_bytes s) (c_begin hs1) o /\
      fst (c_parse src_read it_exhaust reg name2cp st D fuel O truthy len csize hs s) = c_result o /\
      rest_of s (snd (c_parse src_read it_exhaust reg name2cp st D fuel O truthy len csize hs s)) /\
      (match fst o with
       | Good _ => True
       | Bad (CStop false) => exists u hs2, c_close O (c_hs (snd o)) = (Good u, hs2)
       | _ => False
       end -> snd (c_parse src_read it_exhaust reg name2cp st D fuel O truthy len csize hs s) = []).
  Proof.
    intros Hc He Hq Hl Hf Hraw. destruct (chunkiter_yields s csize Hc ltac:(now rewrite He)) as (cs & q & HY & HC & HF).
    rewrite He in HY.
    assert (HN : Forall (fun c => c <> []) cs).
    { eapply Forall_impl; [|exact HF]. intros c Hx ->. cbn in Hx. lia. }
    assert (HLc : length cs <= length (concat cs)).
    { clear -HF. induction HF as [|c cs Hx _ IH]; [easy|]. cbn. rewrite app_length. lia. }
    unfold enough in Hf. rewrite <- HC in *. unfold c_parse. cbv zeta.
    rewrite Hq. apply Z.eqb_neq in Hl. rewrite Hl, Hraw. cbv zeta.
    set (N := length cs).
    pose proof (live_init (ci_next src_read) (mkCI s csize) cs q HY HN) as HL.
    destruct (c_loop_spec src_read reg name2cp st D fuel q N O truthy ltac:(unfold N; lia) HD fuel (concat cs)
                (c_begin hs1) (ls_init (mkCI s csize) None) HL (okA_init _) ltac:(lia) ltac:(lia))
      as (o & s' & E & HP & HQ & HQ').
    pose proof (input_inv src_read reg name2cp st D fuel O truthy (rest_of s) (read_rest s) fuel (c_begin hs1) s csize
                  (conj He (ex_intro _ [] eq_refl))) as HRest.
    rewrite E in HRest. cbn [snd] in HRest. pose proof HRest as (Hr1 & _).
    assert (HE : rest_of s []) by (split; [easy|]; exists (src_bytes s); now rewrite app_nil_r).
    unfold c_begin in E at 1. rewrite E. exists o. split; [exact HP|].
    destruct o as [[u|x] p1].
    - destruct u. rewrite exhaust_ok by exact Hr1. rewrite return_snd. split; [apply return_fst|]. split; [exact HE|easy].
    - destruct x as [e| |reset|]; [now split| now split| |now split].
      cbn [c_result fst snd]. rewrite exhaust_ok by exact Hr1. destruct (c_close O (c_hs p1)) as [[u|x] hs2].
      + destruct reset; rewrite return_snd; (split; [apply return_fst|]); [now split|]. split; [exact HE|easy].
      + split; [easy|]. split; [exact HRest|]. destruct reset; [easy|]. now intros (u & hs3 & HX).
  Qed.
End Whole.
