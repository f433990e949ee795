(** * C86, C87, C90, C91, continued: raw URIs, numbers as text, sizes and first reads *)
From Coq Require Import ZifyBool ZifyN ZifyNat.
From Verif Require Import Py Spec HeadSpec PyFacts PyDict StreamModel CodecModel CodecFacts PercentModel PercentFacts QueryModel
  HeadModel HeadFacts HeaderModel PropsHead PropsUtil PropsPart RequestModel RequestSpec HeaderRun BodyRun PropsRequest UriModel PropsUri PropsUriExact
  FileModel FileSpec FileFacts UploadModel UploadFacts FilesModel DateFacts PropsFiles.

(** ** C86.  get_uri(raw=True): scheme, host and the raw full path, nothing in between *)
Theorem C86_raw_uri :
  forall reg st r p q sc h, utf8_registry reg -> is_bytes p -> is_bytes q -> get_query r = Ok q ->
    utf8_text (unquote_to_bytes (full_path_text false p q)) ->
    a_scheme (r_attrs r) = Some (Some sc) -> a_host (r_attrs r) = Some (Some h) ->
    get_uri_raw reg (snd (snd (set_path p true (st, r)))) =
      Ok (sc ++ !"://" ++ h ++ unquote_to_bytes (full_path_text false p q)).
Proof.
  intros reg st r p q sc h HR HB HBq Hq HT Hs Hh.
  destruct (C86_exact reg st r p q false HR HB HBq Hq HT) as (x & Hx & Ex). unfold get_uri_raw.
  assert (E1 : attr a_scheme (snd (snd (set_path p true (st, r)))) = Ok (Some sc)).
  { unfold attr. cbn. now rewrite Hs. }
  assert (E2 : attr a_host (snd (snd (set_path p true (st, r)))) = Ok (Some h)).
  { unfold attr. cbn. now rewrite Hh. }
  rewrite E1, E2, Hx. cbn [bind shown]. now rewrite Ex.
Qed.
Print Assumptions C86_raw_uri.
Example C86_raw_uri_case : forall rep,
  let reg := fun _ : str => Some (utf8 rep) in
  let '(_, w) := run hdr ex_set (req [!"GET http://h/old?a=%5B HTTP/1.1"; !"Host: x"] []) in
  let '(_, (_, r)) := set_path !"/50%25" true w in
  get_uri_raw reg r = Ok !"http://h/50%?a=[".
Proof.
  intros rep reg. cbn zeta. destruct (run hdr ex_set _) as [x w] eqn:E. vm_compute in E. injection E as <- <-. reflexivity.
Qed.

(** ** C87.  A port that is a number is printed as that number *)
Lemma dec_loop_spec fuel : forall n acc a, (N.to_nat (N.log2 n) < fuel) ->
  int_digits 10 a (dec_loop fuel n acc) = int_digits 10 (a * 10 ^ N.of_nat (length (dec_loop fuel n [])) + n) acc /\
  dec_loop fuel n acc = dec_loop fuel n [] ++ acc /\ forallb is_digit (dec_loop fuel n []) = true /\ dec_loop fuel n [] <> [].
Proof.
  induction fuel as [|f IH]; intros n acc a Hf; [lia|]. cbn [dec_loop].
  assert (Hm : (n mod 10 < 10)%N) by (apply N.mod_lt; lia).
  assert (HD : is_digit (48 + n mod 10) = true) by (unfold is_digit; lia).
  assert (HV : digit_val (48 + n mod 10) = Some (n mod 10)%N) by (unfold digit_val; rewrite HD; f_equal; lia).
  destruct (N.ltb_spec n 10) as [Hn|Hn].
  - split; [|split; [reflexivity|split; [cbn [forallb]; now rewrite HD|discriminate]]].
    cbn [int_digits length]. rewrite HV. replace (N.ltb (n mod 10) 10) with true by lia. f_equal.
    rewrite N.mod_small by lia. change (N.of_nat 1) with 1%N. rewrite N.pow_1_r. reflexivity.
  - assert (Hl : N.to_nat (N.log2 (n / 10)) < f).
    { assert (H2 : (N.log2 (n / 10) < N.log2 n)%N); [|lia].
      apply N.lt_le_trans with (N.succ (N.log2 (n / 10))); [lia|]. rewrite <- N.log2_double by (apply N.div_str_pos; lia).
      apply N.log2_le_mono. pose proof (N.mul_div_le n 10). lia. }
    destruct (IH (n / 10)%N ((48 + n mod 10)%N :: acc) a Hl) as (I1 & I2 & I3 & I4).
    destruct (IH (n / 10)%N [(48 + n mod 10)%N] a Hl) as (J1 & J2 & _ & _).
    split; [|split; [|split]].
    + rewrite I1. cbn [int_digits]. rewrite HV. replace (N.ltb (n mod 10) 10) with true by lia. f_equal.
      rewrite J2, app_length. cbn [length]. rewrite Nat.add_1_r, Nat2N.inj_succ, N.pow_succ_r'. pose proof (N.div_mod n 10). nia.
    + rewrite I2, J2, <- app_assoc. reflexivity.
    + rewrite J2, forallb_app, I3. cbn [forallb andb]. now rewrite HD.
    + rewrite J2. now destruct (dec_loop f (n / 10) []).
Qed.
Lemma N_str_spec n : forallb is_digit (N_str n) = true /\ N_str n <> [] /\ int_digits 10 0 (N_str n) = Some n.
Proof.
  unfold N_str. destruct (dec_loop_spec (S (N.to_nat (N.log2 n))) n [] 0%N ltac:(lia)) as (H1 & _ & H3 & H4).
  split; [exact H3|]. split; [exact H4|]. rewrite H1. reflexivity.
Qed.
Theorem C87_number :
  forall r z, a_port (r_attrs r) = Some (Some (PortInt z)) -> exists t, get_port r = Ok t /\ py_int 10 t = Some z /\
    (forall c, In c t -> c = 45%N \/ is_digit c = true) /\ ((0 <= z)%Z -> forallb is_digit t = true).
Proof.
  intros r z H. unfold get_port, attr. rewrite H. cbn [bind]. exists (Z_str z). split; [reflexivity|].
  unfold Z_str. destruct (Z.ltb_spec z 0) as [Hz|Hz].
  - destruct (N_str_spec (Z.to_N (- z))) as (D1 & D2 & D3). rewrite forallb_forall in D1. split; [|split; [|lia]].
    + unfold py_int. assert (HS : strip (45%N :: N_str (Z.to_N (- z))) = 45%N :: N_str (Z.to_N (- z))).
      { apply strip_by_tight, tight_by_all. intros c [<-|Hc]; [reflexivity|]. now apply digit_not_ws, D1. }
      rewrite HS. change (N.eqb 45 45) with true. cbn iota. unfold int_nat. destruct (N_str (Z.to_N (- z))) as [|c t] eqn:E; [easy|].
      rewrite D3. cbn. f_equal. lia.
    + intros c [<-|Hc]; [now left|right; now apply D1].
  - destruct (N_str_spec (Z.to_N z)) as (D1 & D2 & D3). split; [|split; [|easy]].
    + rewrite py_int_digits by easy. rewrite D3. cbn. f_equal. lia.
    + rewrite forallb_forall in D1. intros c Hc. right. now apply D1.
Qed.
Print Assumptions C87_number.
Example C87_number_case : Z_str 8080 = !"8080" /\ Z_str 10 = !"10" /\ Z_str (-3) = !"-3" /\ Z_str 0 = !"0".
Proof. now vm_compute. Qed.

(** ** C90.  The length is the size the upload was made with, whatever the file holds *)
Theorem C90_length_is_size :
  forall f z, f_class f <> CPlain -> f_size f = Some z ->
    f_len f = (if Z.ltb z 0 then Err ValueError else Ok z) /\
    f_truth f = (if Z.ltb z 0 then Err ValueError else Ok (negb (Z.eqb z 0))).
Proof.
  intros f z HC HS. unfold f_truth, f_len. rewrite HS. destruct (f_class f); [easy| |]; destruct (Z.ltb z 0); easy.
Qed.
Print Assumptions C90_length_is_size.
(** so for an upload whose size is another one than that of its content, len() is not the number of bytes *)
Theorem C90_wrong_size_refuted :
  forall f z, f_class f <> CPlain -> f_size f = Some z -> z <> Z.of_nat (length (fo_data (f_obj f))) ->
    f_len f <> Ok (Z.of_nat (length (concat (f_chunks None f)))).
Proof.
  intros f z HC HS Hz. destruct (C90_length_is_size f z HC HS) as [-> _].
  assert (HA : concat (f_chunks None f) = fo_data (f_obj f)).
  { unfold f_chunks. destruct (f_class f); [easy| |].
    - unfold mem_chunks, fo_seek0, fo_read. cbn. apply app_nil_r.
    - now destruct (PropsData.C72_chunks (f_obj f) None) as [HA _]. }
  rewrite HA. destruct (Z.ltb z 0); [discriminate|]. congruence.
Qed.
Print Assumptions C90_wrong_size_refuted.
(** a size of None, as UploadedFile(file) alone leaves it *)
Theorem C90_no_size_refuted :
  forall f, f_size f = None -> f_len f = Err TypeError /\ f_truth f = Err TypeError.
Proof. intros f H. unfold f_truth, f_len. rewrite H. now destruct (f_class f). Qed.
Print Assumptions C90_no_size_refuted.

(** ** C91, C90.  What the first read of a new file returns: the content from its beginning *)
Theorem C91_first_read :
  forall name content ctype n, let f := simple_file name (Some content) ctype in
    fst (fo_read n (f_obj f)) = (if Z.ltb n 0 then content else firstn (Z.to_nat n) content) /\
    f_chunks (Some n) f = [content].
Proof. intros name content ctype n f. split; reflexivity. Qed.
Print Assumptions C91_first_read.
Theorem C90_upload_first_read :
  forall u n, fst (fo_read n (f_obj (of_upload u))) = (if Z.ltb n 0 then uf_content u else firstn (Z.to_nat n) (uf_content u)) /\
    (uf_size u = length (uf_content u) -> sized (of_upload u)).
Proof.
  intros u n. split; [reflexivity|]. intros H. split; [|cbn; now rewrite H]. cbn. now destruct (uf_kind u).
Qed.
Print Assumptions C90_upload_first_read.
Example C90_tight_case :
  let f := mkPF CTemporary (Some 9%Z) !"n" [] (mkFile !"abcde" 3) in
  f_len f = Ok 9%Z /\ length (concat (f_chunks None f)) = 5 /\
  fst (fo_read 3 (f_obj (simple_file !"a" (Some !"abcde") []))) = !"abc".
Proof. repeat split; reflexivity. Qed.
