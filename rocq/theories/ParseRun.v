(** * parse_request_body: equations and what it stores *)
From Verif Require Import Py Spec HeadSpec PyFacts PyDict StreamModel StreamSpec StreamFacts StreamCalm CodecModel PercentModel
  QueryModel HeadModel HeadFacts HeaderModel UploadModel MultipartModel RequestModel RequestSpec HeaderRun BodyRun.

Local Arguments querydict : simpl never.
Local Arguments decode : simpl never.
Section Run.
  Context (reg : registry) (name2cp : str -> option N) (mk_temp : str -> res unit).
  Notation parse_request_body := (parse_request_body reg name2cp mk_temp).
  Notation parse_post := (parse_post reg name2cp mk_temp).

  Lemma parse_body_done st r : r_bp r = true -> parse_request_body (st, r) = (Ok tt, (st, r)).
  Proof. intros H. unfold RequestModel.parse_request_body, mbind, mreq. cbn [snd]. now rewrite H. Qed.
  Lemma empty_post_eq st r : empty_post reg (st, r) =
    match querydict reg (Some (s_query st)) None false with
    | Ok q => (Ok (PQuery q), (st, set_hasfiles true r))
    | Err e => (Err e, (st, r))
    end.
  Proof.
    unfold empty_post, new_query, mbind, msett, mlift, mupd, mret. cbn [fst snd].
    destruct (querydict reg (Some (s_query st)) None false); reflexivity.
  Qed.
  (** before the header *)
  Lemma parse_body_early st r : r_bp r = false -> r_hp r = false -> parse_request_body (st, r) =
    match querydict reg (Some (s_query st)) None false with
    | Ok q => (Err RequestHeaderParseException, (st, set_hasfiles true (set_handlers (Some (s_handlers st)) r)))
    | Err e => (Err e, (st, set_handlers (Some (s_handlers st)) r))
    end.
  Proof.
    intros H1 H2. unfold RequestModel.parse_request_body. unfold mbind at 1, mreq. cbn [snd]. rewrite H1.
    unfold mbind at 1, msett. cbn [fst]. unfold mbind at 1, mupd. cbn [fst snd]. rewrite H2. cbn [negb].
    unfold mbind at 1. rewrite empty_post_eq. destruct (querydict reg (Some (s_query st)) None false); reflexivity.
  Qed.

  (** lines 525-553 *)
  Definition finish : M unit :=
    let! pf := parse_post in
    let! b := body reg in
    let! st := msett in
    let! t := mlift (decode_text reg (s_charset st) b) in
    mupd (fun r => set_post (Some (fst pf)) (Some (snd pf)) (set_flags (r_hp r) true (set_body (Some (PU t)) r))).

  (** the peek at the body, whatever the source does *)
  Definition at_body (st : sett) (r : request) : request := set_handlers (Some (s_handlers st)) r.
  Lemma parse_body_eq st r : r_bp r = false -> r_hp r = true -> parse_request_body (st, r) =
    match l0_read (Some 1%Z) (r_stream r) with
    | (Err e, s1) => (Err e, (st, set_stream s1 (at_body st r)))
    | (Ok [], s1) => match querydict reg (Some (s_query st)) None false with
                     | Ok q => (Ok tt, (st, set_hasfiles true (set_stream s1 (at_body st r))))
                     | Err e => (Err e, (st, set_stream s1 (at_body st r)))
                     end
    | (Ok d, s1) => match ls_unget d s1 with
                    | (Err e, s2) => (Err e, (st, set_stream s2 (at_body st r)))
                    | (Ok _, s2) => finish (st, set_stream s2 (at_body st r))
                    end
    end.
  Proof.
    intros H1 H2. unfold RequestModel.parse_request_body. unfold mbind at 1, mreq. cbn [snd]. rewrite H1.
    unfold mbind at 1, msett. cbn [fst]. unfold mbind at 1, mupd. cbn [fst snd]. rewrite H2. cbn [negb].
    fold (at_body st r). unfold mbind at 1, mstream at 1. cbn [fst snd]. change (r_stream (at_body st r)) with (r_stream r).
    destruct (l0_read (Some 1%Z) (r_stream r)) as [[[|c d]|e] s1]; [| |reflexivity].
    - unfold mbind at 1. rewrite empty_post_eq. destruct (querydict reg (Some (s_query st)) None false); reflexivity.
    - unfold mbind at 1, mstream at 1. cbn [fst snd set_stream r_stream].
      destruct (ls_unget (c :: d) s1) as [[u|e] s2]; reflexivity.
  Qed.
  Lemma peek_spec k s b : l0at k s b -> 1 <= k <= 38 -> b <> [] ->
    exists c s1 s2, l0_read (Some 1%Z) s = (Ok [c], s1) /\ ls_unget [c] s1 = (Ok tt, s2) /\ l0at (k + 2) s2 b.
  Proof.
    intros HA Hk Hb. destruct b as [|c b]; [easy|].
    destruct (l0_read_spec k s _ 1 HA ltac:(lia)) as (s1 & HR & HA1). cbn [firstn skipn] in *.
    change (Z.of_nat 1) with 1%Z in HR.
    destruct (l0_unget_spec k s1 b [c] HA1 ltac:(lia)) as (s2 & HU & HA2).
    now exists c, s1, s2.
  Qed.
  Lemma parse_body_some k st r b : r_bp r = false -> r_hp r = true -> l0at k (r_stream r) b -> 1 <= k <= 38 -> b <> [] ->
    exists s2, l0at (k + 2) s2 b /\ parse_request_body (st, r) = finish (st, set_stream s2 (at_body st r)).
  Proof.
    intros H1 H2 HA Hk Hb. destruct (peek_spec k _ b HA Hk Hb) as (c & s1 & s2 & HR & HU & HA2).
    exists s2. split; [exact HA2|]. rewrite parse_body_eq by assumption. now rewrite HR, HU.
  Qed.
  Lemma parse_body_none k st r : r_bp r = false -> r_hp r = true -> l0at k (r_stream r) [] -> 1 <= k <= 40 ->
    exists s1, l0at k s1 [] /\ parse_request_body (st, r) =
      match querydict reg (Some (s_query st)) None false with
      | Ok q => (Ok tt, (st, set_hasfiles true (set_stream s1 (at_body st r))))
      | Err e => (Err e, (st, set_stream s1 (at_body st r)))
      end.
  Proof.
    intros H1 H2 HA Hk. destruct (l0_read_spec k _ _ 1 HA ltac:(lia)) as (s1 & HR & HA1). cbn [firstn skipn] in *.
    change (Z.of_nat 1) with 1%Z in HR. exists s1. split; [exact HA1|]. rewrite parse_body_eq by assumption. now rewrite HR.
  Qed.

  Definition stored (p : postv) (fs : dict (list ufile)) (t : str) (r : request) : request :=
    set_post (Some p) (Some fs) (set_flags (r_hp r) true (set_body (Some (PU t)) r)).

  (** urlencoded bodies *)
  Lemma finish_form k st r b m : r_bp r = false -> r_hp r = true -> r_body r = None ->
    a_ctype (r_attrs r) = Some (Some CT_FORM) -> l0at k (r_stream r) b -> 1 <= k <= 40 ->
    s_dmem st = Some m -> (zlen b <= m)%Z ->
    exists s', l0at k s' [] /\
      let r1 := set_body (Some (PB b)) (set_stream s' r) in
      finish (st, r) =
        match querydict reg (Some (s_query st)) (Some (PB b)) false with
        | Err e => (Err e, (st, r1))
        | Ok q => match decode reg (s_charset st) b with
                  | Err e => (Err e, (st, set_hasfiles true r1))
                  | Ok t => (Ok tt, (st, stored (PQuery q) [] t (set_hasfiles true r1)))
                  end
        end.
  Proof.
    intros H1 H2 H3 H4 HA Hk Hm Hb. destruct (read_body_ok k st r b m HA Hk Hm Hb) as (s' & HR & HA').
    exists s'. split; [exact HA'|]. cbn zeta.
    unfold finish. unfold mbind at 1. unfold RequestModel.parse_post. unfold mbind at 1, mreq. cbn [snd]. rewrite H4.
    change (seqb CT_FORM CT_MULTI) with false. change (seqb CT_FORM CT_FORM) with true. cbv iota.
    unfold mbind at 1. rewrite body_reads; [|assumption|now left|assumption]. rewrite HR.
    unfold mbind at 1, new_query, mbind at 1, msett at 1, mlift at 1. cbn [fst].
    destruct (querydict reg (Some (s_query st)) (Some (PB b)) false) as [q|e]; [|reflexivity].
    unfold mbind at 1, mupd at 1, mret at 1. cbn [fst snd].
    unfold mbind at 1. rewrite (body_cached reg _ st (PB b)); [|assumption|left; assumption|reflexivity].
    unfold mbind, msett, mlift, decode_text. cbn [fst]. destruct (decode reg (s_charset st) b) as [t|e]; reflexivity.
  Qed.
  (** bodies of any type but the two form types *)
  Lemma finish_other k st r b m c : r_bp r = false -> r_hp r = true -> r_body r = None ->
    a_ctype (r_attrs r) = Some c -> is_form c = false -> l0at k (r_stream r) b -> 1 <= k <= 40 ->
    s_dmem st = Some m -> (zlen b <= m)%Z ->
    exists s', l0at k s' [] /\
      let r1 := set_body (Some (PB b)) (set_stream s' (set_hasfiles true r)) in
      finish (st, r) =
        match querydict reg (Some (s_query st)) None false with
        | Err e => (Err e, (st, r))
        | Ok q => match decode reg (s_charset st) b with
                  | Err e => (Err e, (st, r1))
                  | Ok t => (Ok tt, (st, stored (PQuery q) [] t r1))
                  end
        end.
  Proof.
    intros H1 H2 H3 H4 Hc HA Hk Hm Hb. destruct (read_body_ok k st (set_hasfiles true r) b m HA Hk Hm Hb) as (s' & HR & HA').
    exists s'. split; [exact HA'|]. cbn zeta.
    unfold finish. unfold mbind at 1. unfold RequestModel.parse_post. unfold mbind at 1, mreq. cbn [snd]. rewrite H4.
    assert (E : match c with Some c0 => seqb c0 CT_MULTI | None => false end = false /\
                match c with Some c0 => seqb c0 CT_FORM | None => false end = false).
    { unfold is_form in Hc. destruct c as [c|]; [|easy]. apply orb_false_iff in Hc as [-> ->]. easy. }
    destruct E as [-> ->]. unfold mbind at 1. rewrite empty_post_eq.
    destruct (querydict reg (Some (s_query st)) None false) as [q|e]; [|reflexivity].
    unfold mret at 1. unfold mbind at 1. rewrite body_reads; [|assumption|now left|assumption]. rewrite HR.
    unfold mbind, msett, mlift, decode_text. cbn [fst]. destruct (decode reg (s_charset st) b) as [t|e]; reflexivity.
  Qed.
End Run.
