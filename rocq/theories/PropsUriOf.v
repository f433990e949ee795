(** * C17, continued: what get_uri() returns, for every request *)
From Coq Require Import ZifyBool ZifyN ZifyNat.
From Verif Require Import Py Spec HeadSpec PyFacts PyDict StreamModel StreamSpec StreamFacts StreamCalm CodecModel
  QueryModel HeadModel HeadFacts UrlFacts PercentModel PercentFacts HeaderModel RequestModel RequestSpec HeaderRun UriModel PropsUtil PropsHead PropsPart PropsRequest PropsEnd PropsHost.

(** scheme (in lower case), host, path and query; the path and the query are encoded.
    No port, no path parameters, no fragment; without a scheme in the target it is 'UNKNOWN' *)
Definition uri_text (u : parse_result) (host : str) : str :=
  (match up_scheme u with [] => !"UNKNOWN" | sc => lower sc end) ++ !"://" ++ host ++
  escape_uri_path false (up_path u) ++ with_delim !"?" (iri_to_uri (up_query u)).
Lemma iri_empty q : iri_to_uri q = [] -> q = [].
Proof.
  destruct q as [|c q]; [easy|]. unfold iri_to_uri, quote. cbn [flat_map]. intros H. apply app_eq_nil in H as [H _].
  unfold quote_byte in H. destruct (_ || _); discriminate.
Qed.
Theorem C17_formula :
  forall reg st s r w m url v u st1 r1, request_init reg st s = Ok r -> delivers s w -> max_ok (s_hdr st) ->
    request_line w m url v -> target url u -> parse_request_header reg (st, r) = (Ok tt, (st1, r1)) ->
    exists a, (up_netloc u <> [] /\ a = up_netloc u \/ up_netloc u = [] /\ RequestSpec.last_value !"Host" w a) /\
      host_is r1 (fst (split_domain_port a)) /\ get_uri r1 = Ok (uri_text u (fst (split_domain_port a))).
Proof.
  intros reg st s r w m url v u st1 r1 Hi Hd Hm HL HT HP.
  destruct (C77_line_attributes reg st s r w m url v u st1 r1 Hi Hd Hm HL HT HP) as (_ & _ & Hp & Hs & Hq).
  destruct (header_known _ _ _ _ _ _ _ Hi Hd Hm HP) as (l & _ & _ & _ & _ & _ & El & _).
  destruct (line_parts _ _ _ _ _ _ HL HT El) as (_ & _ & _ & Ed & _).
  destruct (C13_host_source reg st s r w l Hi Hd Hm El) as [_ H1]. destruct (H1 st1 r1 HP) as (h & a & _ & HA & HH & _).
  exists a. unfold authority in HA. rewrite Ed in HA. split; [exact HA|]. split; [exact HH|].
  unfold get_uri, get_full_path, get_path, attr. unfold host_is in HH. rewrite Hs, HH, Hp, Hq. cbn [bind shown andb app].
  unfold uri_text. do 5 f_equal. f_equal. destruct (up_query u) as [|c q] eqn:E; [reflexivity|]. cbn [nonempty].
  destruct (iri_to_uri (c :: q)) as [|x y] eqn:E2; [now apply iri_empty in E2|]. reflexivity.
Qed.
Print Assumptions C17_formula.

(** _current_scheme_host() is what get_uri() starts with, up to the path *)
Theorem C17_scheme_host :
  forall reg st s r w m url v u st1 r1, request_init reg st s = Ok r -> delivers s w -> max_ok (s_hdr st) ->
    request_line w m url v -> target url u -> parse_request_header reg (st, r) = (Ok tt, (st1, r1)) ->
    exists h p, host_is r1 h /\
      scheme_host r1 = Ok ((match up_scheme u with [] => !"UNKNOWN" | sc => lower sc end) ++ !"://" ++ h) /\
      get_full_path false r1 = Ok p /\
      get_uri r1 = Ok ((match up_scheme u with [] => !"UNKNOWN" | sc => lower sc end) ++ !"://" ++ h ++ p).
Proof.
  intros reg st s r w m url v u st1 r1 Hi Hd Hm HL HT HP.
  destruct (C17_formula reg st s r w m url v u st1 r1 Hi Hd Hm HL HT HP) as (a & _ & HH & HU).
  destruct (C77_line_attributes reg st s r w m url v u st1 r1 Hi Hd Hm HL HT HP) as (_ & _ & _ & Hs & _).
  assert (HS : attr a_scheme r1 = Ok (Some (match up_scheme u with [] => !"UNKNOWN" | sc => lower sc end))).
  { unfold attr. rewrite Hs. now destruct (up_scheme u). }
  assert (HO : attr a_host r1 = Ok (Some (fst (split_domain_port a)))) by (unfold attr; now rewrite HH).
  unfold get_uri in HU |- *. unfold scheme_host. rewrite HS, HO in *. cbn [bind shown] in *.
  destruct (get_full_path false r1) as [p|e]; [|discriminate]. exists (fst (split_domain_port a)), p.
  split; [exact HH|]. now split.
Qed.
Print Assumptions C17_scheme_host.

(** so that requests for different ports, with different path parameters, have the same URI: for
    every scheme, host, path and query *)
Theorem C17_confused_refuted :
  forall reg st s s' r r' w w' m m' v v' u u' st1 st1' r1 r1' name p p',
    request_init reg st s = Ok r -> request_init reg st s' = Ok r' -> delivers s w -> delivers s' w' -> max_ok (s_hdr st) ->
    request_line w m (compose u) v -> request_line w' m' (compose u') v' ->
    target (compose u) u -> target (compose u') u' ->
    up_scheme u = up_scheme u' -> up_path u = up_path u' -> up_query u = up_query u' ->
    name <> [] -> (forall c, In c name -> is_host_char c = true) -> 
    (forall c, In c p -> is_digit c = true) -> (forall c, In c p' -> is_digit c = true) ->
    endswith name !"." = false ->
    up_netloc u = name ++ with_delim !":" p -> up_netloc u' = name ++ with_delim !":" p' ->
    parse_request_header reg (st, r) = (Ok tt, (st1, r1)) -> parse_request_header reg (st, r') = (Ok tt, (st1', r1')) ->
    exists t, get_uri r1 = Ok t /\ get_uri r1' = Ok t.
Proof.
  intros reg st s s' r r' w w' m m' v v' u u' st1 st1' r1 r1' name p p' Hi Hi' Hd Hd' Hm HL HL' HT HT' E1 E2 E3 Hn HC Hp Hp' Hdot En En' HP HP'.
  destruct (C17_formula reg st s r w m _ v u st1 r1 Hi Hd Hm HL HT HP) as (a & HA & _ & ->).
  destruct (C17_formula reg st s' r' w' m' _ v' u' st1' r1' Hi' Hd' Hm HL' HT' HP') as (a' & HA' & _ & ->).
  assert (Ea : a = name ++ with_delim !":" p) by (destruct HA as [[_ ->]|[H _]]; [exact En|]; rewrite H in En; now destruct name).
  assert (Ea' : a' = name ++ with_delim !":" p') by (destruct HA' as [[_ ->]|[H _]]; [exact En'|]; rewrite H in En'; now destruct name).
  assert (HF : forall q, (forall c, In c q -> is_digit c = true) -> fst (split_domain_port (name ++ with_delim !":" q)) = drop_dot name).
  { intros q Hq. now rewrite (C15_valid_hosts_accepted name q Hn HC Hq). }
  subst a a'. rewrite !HF by assumption. unfold uri_text. rewrite E1, E2, E3. now eexists.
Qed.
Print Assumptions C17_confused_refuted.
(** two such requests *)
Definition port_req (t : str) : src := req [!"GET " ++ t ++ !" HTTP/1.1"; !"A: b"] [].
Example C17_formula_case :
  let u1 := mkParse !"http" !"a.org:8080" !"/p" !"x" !"q" [] in
  let u2 := mkParse !"http" !"a.org" !"/p" [] !"q" !"f" in
  compose u1 = !"http://a.org:8080/p;x?q" /\ compose u2 = !"http://a.org/p?q#f" /\ urlparse (compose u1) = Ok u1 /\ urlparse (compose u2) = Ok u2 /\
  get_uri (snd (snd (run hdr ex_set (port_req (compose u1))))) = Ok !"http://a.org/p?q" /\
  scheme_host (snd (snd (run hdr ex_set (port_req (compose u1))))) = Ok !"http://a.org" /\
  get_uri (snd (snd (run hdr ex_set (port_req (compose u2))))) = Ok !"http://a.org/p?q" /\
  get_uri (snd (snd (run hdr ex_set (req [!"GET /p HTTP/1.1"; !"Host: a.org:8080"] [])))) = Ok !"UNKNOWN://a.org/p".
Proof. vm_compute. repeat split. Qed.
