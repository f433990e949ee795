(** * C35, C39, continued: every numeral and every boundary parameter *)
From Coq Require Import ZifyBool ZifyN ZifyNat.
From Verif Require Import Py PyFacts PyDict Spec StreamModel StreamSpec StreamFacts CodecModel CodecFacts QueryModel QueryFacts Base64Model HeaderModel
  HeaderSpec HeaderFacts BoundaryModel BoundarySpec BoundaryFacts PartFacts PartsSpec PartsFacts UploadModel UploadFacts
  MultipartModel MultipartSem MultipartFacts MultipartSpec MultipartDet FormSpec FormFacts MultipartInv BodySpec
  HeadLineFacts ItemFacts BodyFacts PropsPart.

(** ** C39.  What becomes of a number *)
Definition number_becomes (n : N) (text : str) (out : res str) : Prop :=
  (n < 256 -> out = Ok [n])%N /\ (256 <= n < 2 ^ 63 -> out = Ok text)%N /\ (2 ^ 63 <= n -> out = Err OverflowError)%N.
Lemma chr_becomes n text : number_becomes n text (let* r := py_chr n in match r with Some ch => Ok [ch] | None => Ok text end).
Proof.
  unfold py_chr. change (2 ^ 63)%N with 9223372036854775808%N in *. split; [|split]; intros H; change (2 ^ 63)%N with 9223372036854775808%N in *.
  - replace (N.leb 9223372036854775808 n) with false by lia. cbn [bind]. now replace (N.ltb n 256) with true by lia.
  - replace (N.leb 9223372036854775808 n) with false by lia. cbn [bind]. now replace (N.ltb n 256) with false by lia.
  - now replace (N.leb 9223372036854775808 n) with true by lia.
Qed.
Theorem C39_numbers_exact : forall name2cp u t v, ~ In 38%N u -> t <> [] ->
  (Forall (fun c => (48 <= c <= 57)%N) t -> exists out, number_becomes (numeral 10 t) (!"&#" ++ t ++ !";") out /\
     unescape_entities name2cp (u ++ !"&#" ++ t ++ !";" ++ v) = (let* a := out in let* w := unescape_entities name2cp v in Ok (u ++ a ++ w))) /\
  (Forall hex_char t -> forall x, x = !"x" \/ x = !"X" -> exists out, number_becomes (numeral 16 t) (!"&#" ++ x ++ t ++ !";") out /\
     unescape_entities name2cp (u ++ !"&#" ++ x ++ t ++ !";" ++ v) = (let* a := out in let* w := unescape_entities name2cp v in Ok (u ++ a ++ w))).
Proof.
  intros name2cp u t v Hu Hn.
  assert (HC : forall x t2, entity_text (35%N :: x) -> t2 = 35%N :: x ->
            unescape_entities name2cp (u ++ 38%N :: t2 ++ 59%N :: v) =
            (let* a := replace_entity name2cp t2 in let* w := unescape_entities name2cp v in Ok (u ++ a ++ w))).
  { intros x t2 HE ->. rewrite unescape_skip by easy. rewrite (unescape_one name2cp (35%N :: x) v HE (entity_semi _ HE)).
    destruct (replace_entity name2cp (35%N :: x)) as [a|]; [|reflexivity]. cbn [bind]. now destruct (unescape_entities name2cp v). }
  split.
  - intros HF.
    assert (HD : Forall (fun c => hex_char c /\ digit_of c < 10)%N t) by (eapply Forall_impl; [|exact HF]; intros c; apply digit10).
    assert (HH : Forall hex_char t) by (eapply Forall_impl; [|exact HD]; now intros c [H _]).
    exists (replace_entity name2cp (35%N :: t)). split.
    + unfold replace_entity. change (N.eqb 35 ehash) with true. cbn iota. destruct t as [|c r]; [easy|].
      assert (Hc : is_x c = false) by (inversion_clear HF as [|? ? H _]; unfold is_x; lia).
      rewrite Hc. unfold int_nat. rewrite (int_digits_val 10) by auto. fold (numeral 10 (c :: r)). apply chr_becomes.
    + apply (HC t (35%N :: t)); [|easy]. exists !"#", [], t. repeat split; auto.
  - intros HF x Hx.
    assert (HD : Forall (fun c => hex_char c /\ digit_of c < 16)%N t) by (eapply Forall_impl; [|exact HF]; intros c; apply digit16).
    exists (replace_entity name2cp (35%N :: x ++ t)). split.
    + assert (HR : exists c, x = [c] /\ is_x c = true) by (destruct Hx as [-> | ->]; eexists; now split).
      destruct HR as (c & -> & Hc). unfold replace_entity. change (N.eqb 35 ehash) with true. cbn [app]. rewrite Hc.
      assert (E : int16 t = int_nat 16 t).
      { unfold int16. destruct t as [|a [|b r]]; try easy.
        assert (Hb : is_x b = false) by (inversion_clear HF as [|? ? _ H]; inversion_clear H as [|? ? H2 _]; unfold hex_char, is_x in *; lia).
        now rewrite Hb, andb_false_r. }
      rewrite E. unfold int_nat. destruct t as [|d r]; [easy|]. rewrite (int_digits_val 16) by auto. fold (numeral 16 (d :: r)).
      apply chr_becomes.
    + pose proof (HC (x ++ t) (35%N :: x ++ t)) as HE. change (!"&#" ++ x ++ t ++ !";" ++ v) with (38%N :: 35%N :: x ++ t ++ 59%N :: v).
      cbn [app] in HE. rewrite <- app_assoc in HE. apply HE; [|easy].
      exists !"#", x, t. repeat split; auto; destruct Hx; auto.
Qed.
Print Assumptions C39_numbers_exact.
(** so a form holding such a number, however long, cannot be read past it *)
Theorem C39_large_number_refuted : forall name2cp u t v, ~ In 38%N u -> t <> [] -> Forall (fun c => (48 <= c <= 57)%N) t ->
  (2 ^ 63 <= numeral 10 t)%N -> unescape_entities name2cp (u ++ !"&#" ++ t ++ !";" ++ v) = Err OverflowError.
Proof.
  intros name2cp u t v Hu Hn HF HL. destruct (C39_numbers_exact name2cp u t v Hu Hn) as [H _].
  destruct (H HF) as (out & (_ & _ & HO) & ->). now rewrite (HO HL).
Qed.
Print Assumptions C39_large_number_refuted.
Example C39_exact_case : number_becomes 300 !"&#300;" (Ok !"&#300;") /\ numeral 10 !"9223372036854775808" = (2 ^ 63)%N /\
  unescape_entities no_cp !"a&#9223372036854775808;b" = Err OverflowError /\
  unescape_entities no_cp !"a&#9223372036854775807;b" = Ok !"a&#9223372036854775807;b".
Proof. split; [split; [|split]; intros H; vm_compute in H; intuition (try congruence; try discriminate)|]. now vm_compute. Qed.

(** ** C35.  The boundary parameter: missing, accepted, refused *)
Definition length_given (clen : option str) : Z :=
  match clen with None => 0 | Some v => match py_int 10 v with Some z => z | None => 0 end end%Z.
Lemma valid_boundary_iff b : valid_boundary b = true <-> exists s, good_boundary s /\ (b = s \/ b = s ++ [10%N]).
Proof.
  unfold valid_boundary. split.
  - intros [E|E]%orb_prop; [exists b; split; [now apply boundary_match_iff|now left]|].
    destruct (rev b) as [|c r] eqn:ER; [easy|]. apply andb_prop in E as [E1 E2]. exists (rev r).
    split; [now apply boundary_match_iff|]. right. rewrite <- (rev_involutive b), ER. cbn. apply N.eqb_eq in E1. now rewrite E1.
  - intros (s & HG%boundary_match_iff & [->| ->]); [now rewrite HG|]. rewrite rev_app_distr. cbn [rev app].
    change (N.eqb 10 LF) with true. now rewrite rev_involutive, HG, orb_true_r.
Qed.
Theorem C35_exact : forall reg main ps clen, startswith main !"multipart/" = true -> ascii_only (render main ps) = true ->
  ~ In 59%N main -> ~ In 34%N main ->
  Forall (fun p => is_token (fst p) = true /\ endswith (fst p) !"*" = false /\
                   match snd p with Tok v => is_token v = true | Quo v => balanced false v = true end) ps ->
  let r := mp_init reg (Some (render main ps)) clen in
  match last_value !"boundary" ps with
  | None => r = Err AttributeError
  | Some b => ((exists s, good_boundary s /\ (b = s \/ b = s ++ [10%N])) ->
                 r = if Z.ltb (length_given clen) 0 then Err MultiPartParserError else Ok (PB b, length_given clen)) /\
              (~ (exists s, good_boundary s /\ (b = s \/ b = s ++ [10%N])) -> r = Err MultiPartParserError)
  end.
Proof.
  intros reg main ps clen Hm Ha H1 H2 HF.
  assert (Ham : ascii_only main = true).
  { unfold render in Ha. rewrite ascii_only_app in Ha. now apply andb_prop in Ha as [Ha _]. }
  destruct (C19_header_roundtrip_partial reg main ps Ham H1 H2 HF) as (d & E & HD).
  assert (HS : startswith (render main ps) !"multipart/" = true).
  { unfold startswith in *. apply prefixb_iff in Hm as (t & ->). unfold render. rewrite <- app_assoc. apply prefixb_app. }
  unfold mp_init. rewrite HS, Ha, E. cbn [negb bind snd]. rewrite HD. cbv zeta.
  destruct (last_value !"boundary" ps) as [b|]; [|reflexivity]. cbn [option_map pchars]. split.
  - intros HG%valid_boundary_iff. rewrite HG.
    assert (HN : pnonempty (PB b) = true) by (destruct b; [discriminate HG|reflexivity]). rewrite HN. reflexivity.
  - intros HG. destruct (valid_boundary b) eqn:EB; [apply valid_boundary_iff in EB; easy|]. now rewrite andb_false_r.
Qed.
Print Assumptions C35_exact.
Theorem C35_missing_refuted : forall reg main ps clen, startswith main !"multipart/" = true -> ascii_only (render main ps) = true ->
  ~ In 59%N main -> ~ In 34%N main ->
  Forall (fun p => is_token (fst p) = true /\ endswith (fst p) !"*" = false /\
                   match snd p with Tok v => is_token v = true | Quo v => balanced false v = true end) ps ->
  last_value !"boundary" ps = None -> mp_init reg (Some (render main ps)) clen = Err AttributeError.
Proof.
  intros reg main ps clen Hm Ha H1 H2 HF HN. pose proof (C35_exact reg main ps clen Hm Ha H1 H2 HF) as H.
  rewrite HN in H. exact H.
Qed.
Print Assumptions C35_missing_refuted.
Example C35_exact_case : forall reg,
  mp_init reg (Some (render !"multipart/mixed" [(!"charset", Tok !"x")])) None = Err AttributeError /\
  mp_init reg (Some (render !"multipart/mixed" [(!"boundary", Quo (!"x" ++ [10%N]))])) (Some !"7") = Ok (PB (!"x" ++ [10%N]), 7%Z) /\
  mp_init reg (Some (render !"multipart/mixed" [(!"boundary", Tok !"x")])) (Some !"-7") = Err MultiPartParserError.
Proof. intros reg. repeat split; vm_compute; reflexivity. Qed.
