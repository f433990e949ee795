(** * C161: an uploaded file can be printed *)
From Verif Require Import Py PyFacts PyDict CodecModel HeaderModel HeaderFacts UploadModel MultipartModel FormSpec StreamModel RequestModel
  PropsPart PropsMultipart PropsMore PropsUni FileApiModel ReprModel PropsRepr PrintModel.

(** a text that can be printed: bytes, or unicode with ASCII characters only *)
Definition is_ascii_text (s : str) : Prop := forall c, In c s -> (c < 128)%N.
Definition printable (p : pystr) : Prop := match p with PB _ => True | PU u => is_ascii_text u end.

(** class, name and type as the documentation shows them *)
Definition as_repr (cls n c : str) : str := !"<" ++ cls ++ !": " ++ n ++ !" (" ++ c ++ !")>".

Lemma ascii_iff s : ascii_only s = true <-> is_ascii_text s.
Proof. unfold ascii_only, is_ascii_text. rewrite forallb_forall. unfold is_ascii. split; intros H c Hc; apply H in Hc; now apply N.ltb_lt. Qed.
Lemma ascii_app a b : ascii_only (a ++ b) = ascii_only a && ascii_only b.
Proof. apply forallb_app. Qed.

(** ** C161.  str() is the name if that is a byte string, as it is for every file of a request, or
    ASCII; a file object made with any other name cannot be printed *)
Theorem C161_str :
  forall n, (printable n -> print_str (Some n) = Ok (pchars n)) /\ print_str None = Ok [] /\ forall f, print_str (upload_name f) = Ok (uf_name f).
Proof.
  assert (HP : forall n, printable n -> print_str (Some n) = Ok (pchars n)); [|intros n; split; [apply HP|split; [reflexivity|intros f; now apply (HP (PB (uf_name f)))]]].
  intros n H. unfold print_str. destruct (pnonempty n) eqn:E.
  - destruct n as [s|u]; [reflexivity|]. cbn [to_native pchars]. apply ascii_iff in H. now rewrite H.
  - unfold pnonempty in E. destruct (pchars n); [reflexivity|discriminate E].
Qed.
Print Assumptions C161_str.
Theorem C161_unicode_name_refuted : forall n, ~ printable n -> print_str (Some n) = Err UnicodeEncodeError.
Proof.
  intros [s|u] H; [now contradiction H|]. cbn [printable] in H. unfold print_str, pnonempty. cbn [pchars].
  destruct u as [|c u]; [contradiction H; intros c []|]. cbn [nonempty to_native]. destruct (ascii_only (c :: u)) eqn:E; [|reflexivity]. contradiction H. now apply ascii_iff.
Qed.
Print Assumptions C161_unicode_name_refuted.

(** repr() names class, file and type exactly when both are bytes or both are ASCII *)
Theorem C161_repr_partial :
  forall cls n c t, is_ascii_text cls ->
    (print_repr cls (Some n) (Some c) = Ok t <->
     t = as_repr cls (pchars n) (pchars c) /\
     ((exists a b, n = PB a /\ c = PB b) \/ (is_ascii_text (pchars n) /\ is_ascii_text (pchars c)))).
Proof.
  intros cls n c t Hc. apply ascii_iff in Hc.
  assert (HT : forall a b, ascii_only (!"<" ++ cls ++ !": " ++ a ++ !" (" ++ b ++ !")>") = ascii_only a && ascii_only b).
  { intros a b. rewrite !ascii_app, Hc. change (ascii_only !"<") with true. change (ascii_only !": ") with true. change (ascii_only !" (") with true. change (ascii_only !")>") with true.
    cbn [andb]. now rewrite andb_true_r. }
  unfold print_repr, as_repr, shown. rewrite <- !ascii_iff.
  destruct n as [s|u], c as [s'|u']; cbn [is_bytes andb promote pchars].
  - split; [intros [= <-]; split; [reflexivity|left; now exists s, s']|now intros [-> _]].
  - destruct (ascii_only s) eqn:E1; cbn [bind]; [|split; [discriminate|intros [_ [(a & b & _ & H)|[H _]]]; discriminate H]].
    cbn [to_native]. rewrite HT, E1. cbn [andb]. destruct (ascii_only u') eqn:E2.
    + split; [intros [= <-]; split; [reflexivity|now right]|now intros [-> _]].
    + split; [discriminate|]. intros [_ [(a & b & _ & H)|[_ H]]]; discriminate H.
  - cbn [bind]. destruct (ascii_only s') eqn:E1; cbn [bind]; [|split; [discriminate|intros [_ [(a & b & H & _)|[_ H]]]; discriminate H]].
    cbn [to_native]. rewrite HT, E1. destruct (ascii_only u) eqn:E2; cbn [andb].
    + split; [intros [= <-]; split; [reflexivity|now right]|now intros [-> _]].
    + split; [discriminate|]. intros [_ [(a & b & H & _)|[H _]]]; discriminate H.
  - cbn [bind to_native]. rewrite HT. destruct (ascii_only u) eqn:E1, (ascii_only u') eqn:E2; cbn [andb].
    + split; [intros [= <-]; split; [reflexivity|now right]|now intros [-> _]].
    + split; [discriminate|]. intros [_ [(a & b & H & _)|[_ H]]]; discriminate H.
    + split; [discriminate|]. intros [_ [(a & b & H & _)|[H _]]]; discriminate H.
    + split; [discriminate|]. intros [_ [(a & b & H & _)|[H _]]]; discriminate H.
Qed.
Print Assumptions C161_repr_partial.

(** what a file object lacks is shown as None *)
Theorem C161_nothing_given :
  forall cls, (forall c, print_repr cls None c = print_repr cls (Some (PB !"None")) c) /\ (forall n, print_repr cls n None = print_repr cls n (Some (PB !"None"))) /\
    print_repr cls None None = Ok (as_repr cls !"None" !"None").
Proof. intros cls. repeat split. Qed.
Print Assumptions C161_nothing_given.

(** an uploaded file with a Content-Type has a name of bytes and a type of unicode: for no name
    outside ASCII can its repr() be had *)
Theorem C161_repr_all_refuted :
  forall cls f, ~ is_ascii_text (uf_name f) -> print_repr cls (upload_name f) (upload_type true f) = Err UnicodeDecodeError.
Proof.
  intros cls f H. unfold print_repr, upload_name, upload_type, shown. cbn [is_bytes andb promote].
  destruct (ascii_only (uf_name f)) eqn:E; [contradiction H; now apply ascii_iff|reflexivity].
Qed.
Print Assumptions C161_repr_all_refuted.
Theorem C161_untyped :
  forall cls f, print_repr cls (upload_name f) (upload_type false f) = Ok (as_repr cls (uf_name f) (uf_ctype f)).
Proof. reflexivity. Qed.
Print Assumptions C161_untyped.

(** a form that sends such a file: FILES holds it, its repr() raises *)
Theorem C161_repr_refuted :
  exists p f, pt_type p <> None /\ ex_parse ex_ms (render_form !"--X" [p]) = Ok ([], [(!"f", [f])]) /\ print_str (upload_name f) = Ok [195; 169]%N /\
    print_repr !"InMemoryUploadedFile" (upload_name f) (upload_type true f) = Err UnicodeDecodeError.
Proof.
  exists (mkPart !"f" (Some [195; 169]%N) (Some (!"text/plain", [])) false !"data" !"data"). eexists.
  split; [discriminate|]. split; [vm_compute; reflexivity|]. split; vm_compute; reflexivity.
Qed.
Print Assumptions C161_repr_refuted.

(** FILES as a whole prints (as C151 has it) exactly when each of its files does *)
Lemma print_all_ok {A} (g : A -> res str) (h : A -> str) (P : A -> Prop) :
  forall l, (forall a t, In a l -> (g a = Ok t <-> t = h a /\ P a)) -> forall ts, print_all g l = Ok ts <-> ts = map h l /\ forall a, In a l -> P a.
Proof.
  induction l as [|a l IH]; intros H ts; cbn [print_all map].
  - split; [intros [= <-]; split; [reflexivity|intros a []]|now intros [-> _]].
  - assert (IH' : forall ts, print_all g l = Ok ts <-> ts = map h l /\ (forall a, In a l -> P a)) by (apply IH; intros b t Hb; apply H; now right).
    split.
    + destruct (g a) as [x|] eqn:E; [|discriminate]. cbn [bind]. destruct (print_all g l) as [y|]; [|discriminate]. intros [= <-].
      apply H in E as [-> Ha]; [|now left]. destruct (proj1 (IH' y) eq_refl) as [-> Hl]. split; [reflexivity|]. intros b [<-|Hb]; [exact Ha|now apply Hl].
    + intros [-> HP]. rewrite (proj2 (H a (h a) (or_introl eq_refl))); [|split; [reflexivity|apply HP; now left]]. cbn [bind].
      rewrite (proj2 (IH' (map h l))); [reflexivity|]. split; [reflexivity|]. intros b Hb. apply HP. now right.
Qed.
Theorem C161_files_partial :
  forall typed d t, print_files typed d = Ok t <->
    t = files_repr d /\ forall k fs f, In (k, fs) d -> In f fs -> typed f = true -> is_ascii_text (uf_name f) /\ is_ascii_text (uf_ctype f).
Proof.
  intros typed d t. set (P := fun f => typed f = true -> is_ascii_text (uf_name f) /\ is_ascii_text (uf_ctype f)).
  set (h := fun f => as_repr (match uf_kind f with InMemory _ => !"InMemoryUploadedFile" | Temporary _ => !"TemporaryUploadedFile" end) (uf_name f) (uf_ctype f)).
  assert (H1 : forall f u, print_file typed f = Ok u <-> u = h f /\ P f).
  { intros f u. unfold print_file, upload_name, upload_type, h, P. rewrite C161_repr_partial by (apply ascii_iff; destruct (uf_kind f); reflexivity).
    destruct (typed f); cbn [pchars].
    - split; intros [-> H]; (split; [reflexivity|]); [intros _; destruct H as [(a & b & _ & H)|H]; [discriminate H|exact H]|right; now apply H].
    - split; intros [-> H]; (split; [reflexivity|]); [discriminate|left; eauto]. }
  set (hi := fun i : str * list ufile => rpy (PB (fst i)) ++ !": " ++ !"[" ++ join !", " (map h (snd i)) ++ !"]").
  assert (H2 : forall i u, print_item typed i = Ok u <-> u = hi i /\ forall f, In f (snd i) -> P f).
  { intros i u. unfold print_item, hi. pose proof (print_all_ok (print_file typed) h P (snd i) (fun f t _ => H1 f t)) as HA.
    destruct (print_all (print_file typed) (snd i)) as [ts|e]; cbn [bind].
    - destruct (proj1 (HA ts) eq_refl) as [-> HP]. split; [intros [= <-]; now split|now intros [-> _]].
    - split; [discriminate|]. intros [_ HP]. exfalso. discriminate (proj2 (HA (map h (snd i))) (conj eq_refl HP)). }
  pose proof (print_all_ok (print_item typed) hi (fun i => forall f, In f (snd i) -> P f) d (fun i t _ => H2 i t)) as HA.
  assert (E : files_repr d = !"<" ++ !"MultiValueDict" ++ !": " ++ (!"{" ++ join !", " (map hi d) ++ !"}") ++ !">").
  { unfold files_repr, mv_repr. rewrite map_map. do 6 f_equal. f_equal. apply map_ext. intros [k fs]. unfold ritem, hi. cbn [fst snd rval]. do 4 f_equal. rewrite map_map. reflexivity. }
  assert (HQ : (forall k fs f, In (k, fs) d -> In f fs -> P f) <-> (forall i, In i d -> forall f, In f (snd i) -> P f)).
  { split; [intros H [k fs] Hi f Hf; now apply (H k fs)|intros H k fs f Hi Hf; now apply (H (k, fs))]. }
  unfold P in HQ at 1. rewrite HQ, E. unfold print_files.
  destruct (print_all (print_item typed) d) as [l|e]; cbn [bind].
  - destruct (proj1 (HA l) eq_refl) as [-> HP]. split; [intros [= <-]; now split|now intros [-> _]].
  - split; [discriminate|]. intros [_ HP]. exfalso. discriminate (proj2 (HA (map hi d)) (conj eq_refl HP)).
Qed.
Print Assumptions C161_files_partial.
Theorem C161_files_refuted :
  exists p d, pt_type p <> None /\ ex_parse ex_ms (render_form !"--X" [p]) = Ok ([], d) /\ print_files (fun _ => true) d = Err UnicodeDecodeError.
Proof.
  exists (mkPart !"f" (Some [195; 169]%N) (Some (!"text/plain", [])) false !"data" !"data"). eexists.
  split; [discriminate|]. split; vm_compute; reflexivity.
Qed.
Print Assumptions C161_files_refuted.

Example C161_case :
  print_str (Some (PU !"a.txt")) = Ok !"a.txt" /\ printable (PU !"a.txt") /\ ~ printable (PU [233%N]) /\ print_str (Some (PU [233%N])) = Err UnicodeEncodeError /\
  print_repr !"InMemoryUploadedFile" (Some (PB !"a.txt")) (Some (PU !"text/plain")) = Ok !"<InMemoryUploadedFile: a.txt (text/plain)>" /\
  print_repr !"InMemoryUploadedFile" (Some (PB [233%N])) (Some (PB [])) = Ok (!"<InMemoryUploadedFile: " ++ [233%N] ++ !" ()>") /\
  print_repr !"UploadedFile" None None = Ok !"<UploadedFile: None (None)>" /\
  exists d, ex_parse ex_ms (render_form !"--X" [mkPart !"f" (Some !"a.txt") (Some (!"text/plain", [])) false !"data" !"data"]) = Ok ([], d) /\
    print_files (fun _ => true) d = Ok !"<MultiValueDict: {'f': [<InMemoryUploadedFile: a.txt (text/plain)>]}>".
Proof.
  split; [reflexivity|]. split; [apply ascii_iff; reflexivity|]. split; [intros H; specialize (H 233%N (or_introl eq_refl)); discriminate H|]. do 4 (split; [reflexivity|]). eexists. split; vm_compute; reflexivity.
Qed.
