(** * parse_request_header: equations and what a request on the wire gives *)
From Coq Require Import ZifyBool ZifyN ZifyNat.
From Verif Require Import Py Spec HeadSpec PyFacts PyDict StreamModel StreamSpec StreamFacts StreamCalm CodecModel PercentModel
  QueryModel HeadModel HeadFacts UrlFacts HeaderModel UploadModel MultipartModel PropsHead RequestModel RequestSpec.

(** ** The header block of a request on the wire *)
Lemma find_term_skip l X : ~ occurs crlf l ->
  find crlfcrlf (l ++ crlf ++ X) =
    if prefixb crlf X then Some (length l) else option_map (fun i => length l + 2 + i) (find crlfcrlf X).
Proof.
  induction l as [|c l IH]; intros Hno.
  - cbn [app length]. rewrite find_eq. change (prefixb crlfcrlf (crlf ++ X)) with (prefixb crlf X).
    destruct (prefixb crlf X) eqn:E; [reflexivity|]. cbn [app crlf].
    rewrite find_eq. change (prefixb crlfcrlf (10%N :: X)) with false. cbv iota.
    now destruct (find crlfcrlf X).
  - assert (Hl : ~ occurs crlf l).
    { intros (u & v & ->). apply Hno. now exists (c :: u), v. }
    specialize (IH Hl). cbn [app length]. rewrite find_eq.
    assert (HP : prefixb crlfcrlf (c :: l ++ crlf ++ X) = false).
    { destruct (prefixb crlfcrlf (c :: l ++ crlf ++ X)) eqn:E; [|easy]. exfalso.
      apply prefixb_iff in E as [t Ht]. destruct l as [|d l]; [cbn in Ht; discriminate Ht|].
      cbn in Ht. injection Ht as -> -> _. apply Hno. now exists [], l. }
    rewrite HP. rewrite IH. destruct (prefixb crlf X); [reflexivity|].
    now destruct (find crlfcrlf X).
Qed.
Lemma line_no_prefix l X : is_line l -> prefixb crlf (l ++ crlf ++ X) = false.
Proof.
  intros [Hne Hno]. destruct (prefixb crlf (l ++ crlf ++ X)) eqn:E; [exfalso|easy].
  apply prefixb_iff in E as [t Ht]. destruct l as [|a [|b l]]; [easy|discriminate Ht|].
  cbn in Ht. injection Ht as -> -> _. apply Hno. now exists [], l.
Qed.
Lemma wire_find first ls : is_line first -> Forall is_line ls -> forall body,
  find crlfcrlf (lines_text (first :: ls) ++ crlf ++ body) = Some (length (lines_text (first :: ls)) - 2).
Proof.
  intros Hf HF. revert first Hf. induction HF as [|l ls Hl HF IH]; intros first Hf body.
  - unfold lines_text. cbn [map concat]. rewrite app_nil_r, <- app_assoc.
    rewrite find_term_skip by apply Hf. rewrite prefixb_app. f_equal. rewrite app_length. cbn. lia.
  - unfold lines_text in *. cbn [map concat] in *. specialize (IH l Hl body). rewrite <- !app_assoc in *.
    rewrite find_term_skip by apply Hf. rewrite line_no_prefix by exact Hl. rewrite IH. cbn [option_map].
    f_equal. rewrite !app_length. change (length crlf) with 2. lia.
Qed.
Lemma lines_text_end first ls : is_line first -> exists h, lines_text (first :: ls) = h ++ crlf.
Proof.
  intros _. revert first. induction ls as [|l ls IH]; intros first.
  - exists first. unfold lines_text. cbn. now rewrite app_nil_r.
  - destruct (IH l) as [h Hh]. exists (first ++ crlf ++ h). unfold lines_text in *. cbn [map concat] in *.
    rewrite Hh. now rewrite <- !app_assoc.
Qed.
Lemma wire_block w : wire_ok w ->
  exists h, first_occ crlfcrlf (wire_bytes w) h (w_body w) /\ h ++ crlf = lines_text (w_line w :: w_lines w).
Proof.
  intros (H1 & H2 & _). destruct (lines_text_end (w_line w) (w_lines w) H1) as [h Hh].
  exists h. split; [|now rewrite Hh].
  pose proof (wire_find _ _ H1 H2 (w_body w)) as HF. fold (wire_bytes w) in HF.
  rewrite Hh in HF. rewrite app_length in HF. change (length crlf) with 2 in HF.
  replace (length h + 2 - 2) with (length h) in HF by lia.
  apply find_first_occ in HF as (u & v & HFO & Hlen).
  assert (E : wire_bytes w = h ++ crlfcrlf ++ w_body w).
  { unfold wire_bytes. rewrite Hh. now rewrite <- app_assoc. }
  destruct HFO as [Eu Hmin]. assert (u = h /\ v = w_body w) as [-> ->]; [|now split].
  rewrite E in Eu. symmetry in Eu. apply app_eq_split in Eu as (e & He & Et); [|lia].
  assert (e = []) by (destruct e; [easy|]; rewrite He, app_length in Hlen; cbn in Hlen; lia).
  subst e. rewrite app_nil_r in He. subst u. split; [easy|].
  cbn [app] in Et. now apply app_inv_head in Et.
Qed.

(** the parsed headers of such a request *)
Lemma wire_headers w : wire_ok w ->
  exists d, parse_request_headers (lines_text (w_line w :: w_lines w)) = Ok (w_line w, d) /\
    wf d /\ forall n, dget n d = match values_named n (w_fields w) with [] => None | vs => Some vs end.
Proof.
  intros (H1 & H2 & H3 & H4).
  pose proof (parse_request_headers_spec (w_line w) (w_lines w) H1 H2) as HS. unfold block in HS. unfold lines_text.
  rewrite HS, (lines_outcome_good _ _ H3). clear HS.
  destruct (w_fields w) as [|p ps] eqn:E; [inversion H3; congruence|].
  eexists. split; [reflexivity|]. split; [apply (add_all_wf (p :: ps) []), wf_nil|].
  intros n. rewrite add_all_get, values_named_of. cbn [dget]. now destruct (values_named n (p :: ps)).
Qed.

(** ** parse_request_header as equations *)
Local Arguments querydict : simpl never.
Section Run.
  Context (reg : registry).

  Definition ctype_of (hs : headers) : res (option str * option pystr) :=
    match header !"Content-Type" hs with
    | None => Ok (None, None)
    | Some v => let* p := parse_header reg v in Ok (Some (fst p), dget !"charset" (snd p))
    end.
  Definition query_of (st : sett) (q : str) : res qdict :=
    if nonempty q then querydict reg (Some (s_query st)) (Some (PB q)) false
    else querydict reg (Some (s_query st)) None true.
  Definition charset_after (ch : option pystr) (st : sett) : sett :=
    match ch with Some v => with_charset (pchars v) st | None => st end.
  Definition reset_if (ch : option pystr) (r : request) : request :=
    match ch with Some _ => set_body None (set_get None r) | None => r end.
  Definition scheme_of (l : reqline) : str := if nonempty (rl_scheme l) then lower (rl_scheme l) else !"UNKNOWN".
  Definition line_attrs (l : reqline) (host : str) (c : option (option str)) : attrs :=
    mkA (Some (Some (rl_method l))) (Some (Some (scheme_of l))) (Some (Some (fst (split_domain_port host))))
        (Some (Some (pick_port (snd (split_domain_port host)) (rl_scheme l)))) (Some (Some (rl_path l)))
        (Some (Some (rl_proto l))) c.

  Lemma populate_eq l hs0 st r :
    populate reg l hs0 (st, r) =
      match pick_host l hs0 with
      | Err e => (Err e, (st, r))
      | Ok (host, hs) =>
          match ctype_of hs with
          | Err e => (Err e, (st, set_attrs (line_attrs l host (a_ctype (r_attrs r))) r))
          | Ok (c, ch) =>
              let st2 := charset_after ch st in
              let r2 := reset_if ch (set_attrs (line_attrs l host (Some c)) r) in
              match r_meta r with
              | None => (Err AttributeError, (st2, r2))
              | Some m =>
                  match query_of st2 (rl_query l) with
                  | Err e => (Err e, (st2, set_meta (Some (mkMeta (Some (rl_query l)) (m_headers m))) r2))
                  | Ok g => (Ok tt, (st2, set_meta (Some (mkMeta (Some (rl_query l)) (Some hs))) (set_get (Some g) r2)))
                  end
              end
          end
      end.
  Proof.
    unfold populate. unfold mbind at 1. unfold mlift. destruct (pick_host l hs0) as [[host hs]|e]; [|reflexivity].
    unfold line_attrs. destruct (split_domain_port host) as [dom port]. cbn [fst snd].
    unfold ctype_of. destruct (header !"Content-Type" hs) as [v|].
    - destruct (parse_header reg v) as [[c ps]|e].
      2:{ cbn [bind]. reflexivity. }
      cbn [bind fst snd]. unfold mbind, mupd, mlift, mret, mreq. cbn [fst snd].
      destruct (dget !"charset" ps) as [x|].
      + unfold set_encoding. cbn. destruct (r_meta r) as [m|]; [|reflexivity].
        unfold query_of, new_query, mbind, msett, mlift. cbn.
        destruct (nonempty (rl_query l)); cbn; match goal with |- context [querydict ?a ?b ?c ?d] => destruct (querydict a b c d) end; reflexivity.
      + cbn. destruct (r_meta r) as [m|]; [|reflexivity].
        unfold query_of, new_query, mbind, msett, mlift. cbn.
        destruct (nonempty (rl_query l)); cbn; match goal with |- context [querydict ?a ?b ?c ?d] => destruct (querydict a b c d) end; reflexivity.
    - unfold mbind, mupd, mlift, mret, mreq. cbn. destruct (r_meta r) as [m|]; [|reflexivity].
      unfold query_of, new_query, mbind, msett, mlift. cbn.
      destruct (nonempty (rl_query l)); cbn; match goal with |- context [querydict ?a ?b ?c ?d] => destruct (querydict a b c d) end; reflexivity.
  Qed.

  Lemma header_eq st r : r_hp r = false ->
    parse_request_header reg (st, r) =
      match frame (s_hdr st) (r_stream r) with
      | (x, b, s1) =>
          let w := (st, set_flags b (r_bp r) (set_stream s1 r)) in
          match x with
          | Err e => (Err e, w)
          | Ok hdr =>
              match parse_request_headers hdr with
              | Err e => (Err e, w)
              | Ok (line, hs) =>
                  match parse_request_line line with
                  | Err e => (Err e, w)
                  | Ok l => populate reg l hs w
                  end
              end
          end
      end.
  Proof.
    intros H. unfold parse_request_header, mbind, mreq, msett, mlift. cbn [fst snd]. rewrite H. cbn [fst snd].
    destruct (frame (s_hdr st) (r_stream r)) as [[x b] s1]. destruct x as [hdr|e]; [|reflexivity].
    destruct (parse_request_headers hdr) as [[line hs]|e]; [|reflexivity]. cbn [fst snd].
    destruct (parse_request_line line) as [l|e]; reflexivity.
  Qed.
  Lemma header_done st r : r_hp r = true -> parse_request_header reg (st, r) = (Ok tt, (st, r)).
  Proof. intros H. unfold parse_request_header, mbind, mreq. cbn [fst snd]. now rewrite H. Qed.

  (** a request on the wire *)
  Lemma header_wire k w st r : wire_ok w -> max_ok (s_hdr st) -> 1 <= k <= 38 -> l0at k (r_stream r) (wire_bytes w) ->
    r_hp r = false ->
    exists s1 d, l0at (k + 2) s1 (w_body w) /\ wf d /\
      (forall n, dget n d = match values_named n (w_fields w) with [] => None | vs => Some vs end) /\
      parse_request_header reg (st, r) =
        let w' := (st, set_flags true (r_bp r) (set_stream s1 r)) in
        match parse_request_line (w_line w) with
        | Err e => (Err e, w')
        | Ok l => populate reg l d w'
        end.
  Proof.
    intros Hw Hm Hk HA Hhp. destruct (wire_block w Hw) as (h & HF & Hh).
    destruct (wire_headers w Hw) as (d & Hd & Hwf & Hg).
    destruct (frame_found _ k _ _ h (w_body w) Hm Hk HA HF) as (s1 & HFr & HA1).
    exists s1, d. split; [exact HA1|]. split; [exact Hwf|]. split; [exact Hg|].
    rewrite header_eq by exact Hhp. rewrite HFr. cbn zeta. rewrite Hh, Hd. reflexivity.
  Qed.
End Run.
