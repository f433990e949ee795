(** * Theorems C89-C91: file objects *)
From Coq Require Import ZifyBool ZifyN ZifyNat.
From Verif Require Import Py PyFacts PyDict FileModel FileSpec FileFacts UploadModel UploadFacts FilesModel PropsData.

(** ** C89.  multiple_chunks() announces more than one chunk *)
(** an uploaded file whose size is that of its content *)
Definition sized (f : pfile) : Prop := f_class f <> CPlain /\ f_size f = Some (Z.of_nat (length (fo_data (f_obj f)))).

Lemma blocks_many n cs : blocks n cs -> 0 < n -> (1 < length cs <-> n < length (concat cs)).
Proof.
  intros H Hn. destruct H as [|b Hb|b l Hb Hl H]; cbn [length concat]; rewrite ?app_nil_r; [lia|lia|].
  rewrite app_length. assert (0 < length (concat l)); [|destruct l; [easy|cbn [length]; lia]].
  destruct H as [|c Hc|c l Hc Hl' H]; [easy| |]; cbn [concat]; rewrite app_length; lia.
Qed.
Theorem C89_uploaded_multiple_chunks_partial :
  forall f n, sized f -> match n with Some z => (0 < z)%Z | None => True end ->
    (f_multiple n f = true <-> 1 < length (f_chunks n f)) /\ concat (f_chunks n f) = fo_data (f_obj f).
Proof.
  intros f n [HC HS] Hn. unfold f_multiple, f_chunks. destruct (f_class f); [easy| |].
  - unfold mem_chunks, fo_seek0, fo_read. cbn. split; [split; [discriminate|lia]|apply app_nil_r].
  - rewrite HS. destruct (C72_chunks (f_obj f) n) as [HA HB]. specialize (HB Hn). split; [|exact HA].
    rewrite (blocks_many _ _ HB) by (destruct n; lia). rewrite HA. rewrite Z.ltb_lt. unfold chunk_size_of, DEFAULT_CHUNK_SIZE.
    destruct n as [z|]; [destruct (Z.eqb_spec z 0); lia|lia].
Qed.
Print Assumptions C89_uploaded_multiple_chunks_partial.
(** a plain File always announces several chunks *)
Theorem C89_plain_file_refuted :
  forall f n, f_class f = CPlain -> f_multiple n f = true /\
    ((Z.of_nat (length (fo_data (f_obj f))) <= 65536)%Z -> n = None -> length (f_chunks n f) <= 1).
Proof.
  intros f n HC. unfold f_multiple, f_chunks. rewrite HC. split; [reflexivity|]. intros Hl ->.
  destruct (C72_chunks (f_obj f) None) as [HA HB]. specialize (HB I). set (k := Z.to_nat (64 * 2 ^ 10)) in HB.
  assert (Hk : k = Z.to_nat 65536) by reflexivity. clearbody k.
  pose proof (proj1 (blocks_many k _ HB ltac:(lia))) as HM. rewrite HA in HM. lia.
Qed.
Print Assumptions C89_plain_file_refuted.

(** ** C90.  The length and the truth value of a file *)
Theorem C90_length_of_uploads :
  forall f, sized f -> f_len f = Ok (Z.of_nat (length (concat (f_chunks None f)))).
Proof.
  intros f [HC HS]. unfold f_len. rewrite HS.
  assert (HA : concat (f_chunks None f) = fo_data (f_obj f)).
  { apply (C89_uploaded_multiple_chunks_partial f None); [now split|easy]. }
  rewrite HA. destruct (f_class f); [easy| |]; (destruct (Z.ltb_spec (Z.of_nat (length (fo_data (f_obj f)))) 0); [lia|reflexivity]).
Qed.
Print Assumptions C90_length_of_uploads.
(** an uploaded file is true iff it has content: the named, empty file is false *)
Theorem C90_truth_is_content :
  forall f, sized f -> f_truth f = Ok (negb (Nat.eqb (length (fo_data (f_obj f))) 0)).
Proof.
  intros f H. pose proof (C90_length_of_uploads f H) as HL. destruct H as [HC HS]. unfold f_truth. rewrite HL. cbn [bind].
  replace (concat (f_chunks None f)) with (fo_data (f_obj f)); [f_equal; lia|].
  symmetry. now apply (C89_uploaded_multiple_chunks_partial f None).
Qed.
Print Assumptions C90_truth_is_content.
Theorem C90_empty_upload_refuted :
  exists f, sized f /\ f_name f <> [] /\ f_truth f = Ok false.
Proof. exists (simple_file !"empty.txt" (Some []) []). repeat split; discriminate || reflexivity. Qed.
Print Assumptions C90_empty_upload_refuted.
(** a plain File has neither length nor truth value, and a ContentFile cannot be made *)
Theorem C90_plain_file_refuted :
  forall f c, f_class f = CPlain -> f_len f = Err TypeError /\ f_truth f = Err TypeError /\ content_file c = Err TypeError.
Proof. intros f c H. unfold f_truth, f_len. rewrite H. easy. Qed.
Print Assumptions C90_plain_file_refuted.

(** ** C91.  SimpleUploadedFile *)
Theorem C91_simple_file :
  forall name content ctype, let f := simple_file name (Some content) ctype in
    sized f /\ (forall n, f_chunks n f = [content]) /\ f_len f = Ok (Z.of_nat (length content)) /\ f_ctype f = ctype /\
    ~ In 47%N (f_name f) /\ length (f_name f) <= 255 /\ (~ In 47%N name -> length name <= 255 -> f_name f = name).
Proof.
  intros name content ctype f.
  assert (HS : sized f) by (split; [discriminate|reflexivity]).
  split; [exact HS|]. split; [reflexivity|].
  split. { rewrite (C90_length_of_uploads f HS). do 2 f_equal. cbn. now rewrite app_nil_r. }
  split; [reflexivity|]. split; [intros H; apply set_name_In in H; now apply basename_sep in H|].
  split; [apply set_name_length|apply set_name_id].
Qed.
Print Assumptions C91_simple_file.
Theorem C91_from_dict :
  forall d, match simple_from_dict d with
            | Ok f => exists n c, dget !"filename" d = Some n /\ dget !"content" d = Some c /\
                        f_chunks None f = [c] /\ (~ In 47%N n -> length n <= 255 -> f_name f = n) /\
                        f_ctype f = match dget !"content-type" d with Some t => t | None => !"text/plain" end
            | Err e => e = KeyError /\ (dget !"filename" d = None \/ dget !"content" d = None)
            end.
Proof.
  intros d. unfold simple_from_dict. destruct (dget !"filename" d) as [n|]; [|split; [easy|now left]].
  destruct (dget !"content" d) as [c|]; [|split; [easy|now right]].
  exists n, c. split; [easy|]. split; [easy|]. split; [reflexivity|]. split; [apply set_name_id|reflexivity].
Qed.
Print Assumptions C91_from_dict.

Example C89_case :
  let f := mkPF CTemporary (Some 5%Z) !"n" [] (mkFile !"abcde" 3) in
  sized f /\ f_multiple (Some 2%Z) f = true /\ f_chunks (Some 2%Z) f = [!"ab"; !"cd"; !"e"] /\ f_multiple (Some 5%Z) f = false /\
  f_multiple None (mkPF CPlain None [] [] (mkFile [] 0)) = true /\ f_chunks None (mkPF CPlain None [] [] (mkFile [] 0)) = [].
Proof. repeat split; discriminate || reflexivity. Qed.
Example C90_case : sized (simple_file !"empty.txt" (Some []) []) /\ f_truth (simple_file !"empty.txt" (Some []) []) = Ok false /\
  f_truth (simple_file !"a" (Some !"x") []) = Ok true.
Proof. repeat split; discriminate || reflexivity. Qed.
Example C91_case : f_name (simple_file !"/etc/a.txt" (Some !"x") !"t") = !"a.txt" /\
  simple_from_dict [(!"filename", !"f"); (!"content", !"c")] = Ok (simple_file !"f" (Some !"c") !"text/plain") /\
  simple_from_dict [(!"filename", !"f")] = Err KeyError.
Proof. repeat split; reflexivity. Qed.
