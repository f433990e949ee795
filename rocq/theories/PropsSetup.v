(** * Theorem C128: which of the library's upload handlers are set makes no difference to what is returned *)
From Verif Require Import Py Spec PyFacts PyDict StreamModel StreamSpec StreamFacts CodecModel QueryModel Base64Model HeaderModel
  BoundaryModel UploadModel MultipartModel MultipartDet FormSpec ItemFacts CustomModel CustomGuard CustomLib CustomPar
  PropsPart PropsMultipart PropsWatch RequestModel SizeFacts.

(** ** What handlers are for: collect the chunks of a file *)
(** a file is kept when anything was written to it; [strict]: a file without content is an AttributeError instead *)
Definition coll (strict : bool) : ops (option (finfo * str)) ufile Empty_set :=
  mkOps _ ufile Empty_set
    (fun _ h => (Good None, h))
    (fun i _ _ => (Good tt, Some (i, [])))
    (fun d _ h => match h with Some (i, w) => (Good None, Some (i, w ++ d)) | None => (Bad (CExn AttributeError), h) end)
    (fun n h => match h with
                | Some (i, []) => (if strict then Bad (CExn AttributeError) else Good None, h)
                | Some (i, w) => (Good (Some (mkUF (InMemory []) (set_name (fi_name i)) w n (fi_ctype i) (fi_charset i) (fi_extra i) (fi_tenc i))), h)
                | None => (Bad (CExn AttributeError), h)
                end)
    (fun h => (Good tt, h))
    (fun h => (Good false, h)).

(** ** The library's handlers, in any list *)
Section Lanes.
  Context (mk_temp : str -> res unit) (Hmk : can_create mk_temp) (m : Z) (Hm : (0 <= m)%Z).
  Notation L := (lib_ops mk_temp (Some m)).
  (** with [fg], a handler that would fail in file_complete says None instead *)
  Definition gops (fg : bool) : ops handler ufile Empty_set :=
    mkOps _ _ _ (o_raw L) (o_new L) (o_data L)
      (fun n h => (match h_complete n h with Ok o => Good o | Err e => if fg then Good None else Bad (CExn e) end, h)) (o_close L) (o_end L).

  Definition passive (h : handler) : Prop := match h with HMem c => mh_activated c = Some false | _ => False end.
  Definition taker (h : handler) : Prop :=
    match h with HMem c => mh_activated c = Some true | HTemp _ => True | HConv c => conv_ok c end.
  Definition working (h : handler) (i : finfo) (d : str) : Prop :=
    match h with
    | HMem c => mh_info c = Some i /\ mh_file c = Some d
    | HTemp t => th_info t = Some i /\ th_file t = Some d
    | HConv c => conv_open c i d
    end.
  Definition usable (h : handler) : Prop := passive h \/ taker h.
  Definition nostop (h : handler) : Prop := passive h \/ exists t, h = HTemp t.
  Inductive quiet : list handler -> Prop :=
  | quiet_nil : quiet []
  | quiet_one h : quiet [h]
  | quiet_more h l : nostop h -> quiet l -> quiet (h :: l).
  Definition started (h : handler) : Prop := exists o, h_complete 0 h = Ok o.

  Lemma taker_new i T : taker T -> exists r T', h_new_file mk_temp i T = (r, T') /\ (r = Ok tt \/ r = Err StopFutureHandlers) /\
    taker T' /\ working T' i [] /\ (nostop T -> r = Ok tt /\ nostop T').
  Proof.
    destruct T as [c|t|c]; cbn [taker h_new_file].
    - intros HA. unfold mem_new_file. rewrite HA. do 2 eexists. split; [reflexivity|]. repeat split; try easy; [now right|..];
        destruct H as [H|[t H]]; try discriminate; cbn in H; congruence.
    - intros _. unfold temp_new_file. destruct (Hmk (temp_suffix (fi_name i))) as [[] ->]. do 2 eexists. split; [reflexivity|].
      repeat split; try easy; [now left|]. right. now eexists.
    - intros HA. destruct (conv_new_ok mk_temp Hmk i c HA) as (r & c' & -> & B1 & B2 & _ & B4). do 2 eexists. split; [reflexivity|].
      repeat split; try easy; destruct H as [H|[t H]]; easy.
  Qed.
  Lemma taker_data i w d T : taker T -> working T i w -> exists T', h_receive mk_temp (Some m) d T = (Ok None, T') /\ taker T' /\ working T' i (w ++ d) /\
    (nostop T -> nostop T').
  Proof.
    destruct T as [c|t|c]; cbn [taker working h_receive].
    - intros HA [HB HC]. unfold mem_receive. rewrite HA, HC. eexists. split; [reflexivity|]. repeat split; try easy.
      intros [H|[t H]]; [|discriminate]. cbn in H. congruence.
    - intros _ [HB HC]. unfold temp_receive. rewrite HC. eexists. split; [reflexivity|]. repeat split; try easy. intros _. right. now eexists.
    - intros HA HB. destruct (conv_receive_ok mk_temp Hmk m d w i c HA HB) as (c' & -> & B1 & B2 & _). eexists. split; [reflexivity|].
      repeat split; try easy. intros [H|[t H]]; easy.
  Qed.
  Definition made (f : ufile) (i : finfo) (w : str) (n : nat) : Prop :=
    uf_name f = set_name (fi_name i) /\ uf_content f = w /\ uf_size f = n /\ uf_ctype f = fi_ctype i /\ uf_charset f = fi_charset i /\
    uf_extra f = fi_extra i /\ uf_tenc f = fi_tenc i.
  Lemma taker_done n i w T : taker T -> working T i w -> exists f, h_complete n T = Ok (Some f) /\ made f i w n.
  Proof.
    destruct T as [c|t|c]; cbn [taker working h_complete].
    - intros HA [HB HC]. unfold mem_complete. rewrite HA, HC, HB. eexists. split; [reflexivity|]. now repeat split.
    - intros _ [HB HC]. unfold temp_complete. rewrite HC, HB. eexists. split; [reflexivity|]. now repeat split.
    - intros HA HB. destruct (conv_complete_ok n i w c HA HB) as (f & -> & B). eexists. split; [reflexivity|]. exact B.
  Qed.
  Lemma complete_zero h : match h_complete 0 h with Ok (Some f) => file_truthy f = false | Ok None => True | Err e => e = AttributeError end.
  Proof.
    destruct h as [[[[]|] [i|] [f|]]|[[i|] [f|]]|[[[[[]|] [i|] [f|]]|[[i|] [f|]]] n b]]; try reflexivity; exact I.
  Qed.
  Lemma complete_err n h e : h_complete n h = Err e -> e = AttributeError.
  Proof.
    destruct h as [[[[]|] [i|] [f|]]|[[i|] [f|]]|[[[[[]|] [i|] [f|]]|[[i|] [f|]]] k b]]; cbn; congruence.
  Qed.
  Lemma passive_new i h : passive h -> exists h', h_new_file mk_temp i h = (Ok tt, h') /\ passive h'.
  Proof. destruct h as [c| |]; try easy. cbn. intros HA. unfold mem_new_file. rewrite HA. eexists. split; [reflexivity|]. easy. Qed.
  Lemma passive_data d h : passive h -> h_receive mk_temp (Some m) d h = (Ok (Some d), h).
  Proof. destruct h as [c| |]; try easy. cbn. intros HA. unfold mem_receive. now rewrite HA. Qed.
  Lemma passive_done n h : passive h -> h_complete n h = Ok None.
  Proof. destruct h as [c| |]; try easy. cbn. intros HA. unfold mem_complete. now rewrite HA. Qed.
  Lemma working_started T i w : taker T -> working T i w -> started T.
  Proof. intros H1 H2. destruct (taker_done 0 i w T H1 H2) as (f & E & _). now exists (Some f). Qed.

  Section Mode.
    Context (fg : bool).
    Notation G := (gops fg).
    Lemma go_new i len h : o_new G i len h = let (r, h1) := h_new_file mk_temp i h in (lift_new r, h1).
    Proof. reflexivity. Qed.
    Lemma go_data d n h : o_data G d n h = let (r, h1) := h_receive mk_temp (Some m) d h in (of_res r, h1).
    Proof. reflexivity. Qed.
    Lemma go_done n h : o_done G n h = (match h_complete n h with Ok o => Good o | Err e => if fg then Good None else Bad (CExn e) end, h).
    Proof. reflexivity. Qed.
    Lemma new_tail i len : forall b, Forall usable b -> exists b', c_new G i len b = (Good tt, b') /\ Forall usable b' /\ length b' = length b /\
      (quiet b -> quiet b' /\ Forall started b').
    Proof.
      induction b as [|h b IH]; intros HU. { exists []. repeat split; constructor. }
      inversion HU as [|? ? H1 H2]; subst. destruct (IH H2) as (b' & E & B1 & B2 & B3). cbn [c_new]. rewrite go_new.
      destruct H1 as [H1|H1].
      - destruct (passive_new i h H1) as (h' & -> & HP). cbn [lift_new]. rewrite E.
        exists (h' :: b'). repeat split; [constructor; [now left|exact B1]|cbn; now rewrite B2|..].
        + inversion H as [|?|? ? K1 K2]; subst; [destruct b'; [apply quiet_one|discriminate B2]|].
          apply quiet_more; [now left|now apply B3].
        + constructor; [exists None; now apply passive_done|]. inversion H as [|?|? ? K1 K2]; subst; [destruct b'; [constructor|discriminate B2]|now apply B3].
      - destruct (taker_new i h H1) as (r & h' & -> & [-> | ->] & HT & HW & HN); cbn [lift_new].
        + rewrite E. exists (h' :: b'). repeat split; [constructor; [now right|exact B1]|cbn; now rewrite B2|..].
          * inversion H as [|?|? ? K1 K2]; subst; [destruct b'; [apply quiet_one|discriminate B2]|].
            apply quiet_more; [now apply HN|now apply B3].
          * constructor; [now apply (working_started h' i [])|]. inversion H as [|?|? ? K1 K2]; subst; [destruct b'; [constructor|discriminate B2]|now apply B3].
        + exists (h' :: b). repeat split; [constructor; [now right|exact H2]|..].
          * inversion H as [|?|? ? K1 K2]; subst; [apply quiet_one|]. destruct (HN K1). discriminate.
          * inversion H as [|?|? ? K1 K2]; subst; [|destruct (HN K1); discriminate]. constructor; [now apply (working_started h' i [])|constructor].
    Qed.
    Lemma new_pass i len l : forall a, Forall passive a -> exists a', Forall passive a' /\ length a' = length a /\
      c_new G i len (a ++ l) = (let (r, l') := c_new G i len l in (r, a' ++ l')).
    Proof.
      induction a as [|h a IH]; intros HA. { exists []. repeat split; [constructor|]. cbn [app]. now destruct (c_new G i len l). }
      inversion HA as [|? ? H1 H2]; subst. destruct (IH H2) as (a' & A1 & A2 & A3). destruct (passive_new i h H1) as (h' & E & HP).
      exists (h' :: a'). repeat split; [now constructor|cbn; now rewrite A2|]. cbn [app c_new]. rewrite A3, go_new, E. cbn [lift_new].
      now destruct (c_new G i len l).
    Qed.
    Lemma feed_pass d l cl : forall a ca, Forall passive a -> length ca = length a -> exists ca', length ca' = length a /\
      c_feed G d (a ++ l) (ca ++ cl) = (let (r, x) := c_feed G d l cl in (r, (a ++ fst x, ca' ++ snd x))).
    Proof.
      induction a as [|h a IH]; intros [|c ca] HA HC; try discriminate. { exists []. split; [reflexivity|]. cbn [app]. now destruct (c_feed G d l cl) as [r [x y]]. }
      inversion HA as [|? ? H1 H2]; subst. injection HC as HC. destruct (IH ca H2 HC) as (ca' & A1 & A2).
      exists ((c + length d) :: ca'). split; [cbn; now rewrite A1|]. cbn [app c_feed]. rewrite go_data, (passive_data d h H1). cbn [of_res].
      rewrite A2. now destruct (c_feed G d l cl) as [r [x y]].
    Qed.
    Lemma done_pass name f l cl : forall a ca, Forall passive a -> length ca = length a ->
      c_complete G file_truthy name (a ++ l) (ca ++ cl) f = (let (r, l') := c_complete G file_truthy name l cl f in (r, a ++ l')).
    Proof.
      induction a as [|h a IH]; intros [|c ca] HA HC; try discriminate. { cbn [app]. now destruct (c_complete G file_truthy name l cl f). }
      inversion HA as [|? ? H1 H2]; subst. injection HC as HC. cbn [app c_complete]. rewrite (IH ca H2 HC), go_done, (passive_done c h H1).
      now destruct (c_complete G file_truthy name l cl f).
    Qed.
    (** the handlers after the one that takes the file: nothing has come to them *)
    Lemma done_tail name f : forall b, (fg = true \/ Forall started b) -> c_complete G file_truthy name b (zeros b) f = (Good f, b).
    Proof.
      induction b as [|h b IH]; intros HS; [reflexivity|]. cbn [zeros map c_complete]. rewrite go_done.
      assert (IH' : c_complete G file_truthy name b (zeros b) f = (Good f, b)). { apply IH. destruct HS as [HS|HS]; [now left|right; now inversion HS]. }
      pose proof (complete_zero h) as HZ. unfold zeros in IH'.
      destruct (h_complete 0 h) as [[g|]|e] eqn:E.
      - rewrite HZ, IH'. reflexivity.
      - now rewrite IH'.
      - destruct HS as [->|HS]; [now rewrite IH'|]. inversion HS as [|? ? [o Ho] ?]; subst. congruence.
    Qed.
    Lemma g_close : forall hs, c_close G hs = (Good tt, hs).
    Proof. induction hs as [|h hs IH]; [easy|]. cbn [c_close]. change (o_close G h) with (@Good unit tt, h). cbv beta iota. now rewrite IH. Qed.
    Lemma g_end : forall hs, c_end G hs = (Good tt, hs).
    Proof. induction hs as [|h hs IH]; [easy|]. cbn [c_end]. change (o_end G h) with (Good false, h). cbv beta iota. now rewrite IH. Qed.

    (** ** Handlers that collect every file *)
    Definition in_lane (x : list handler * list nat) (y : list (option (finfo * str)) * list nat) : Prop :=
      exists a T b o k, fst x = a ++ T :: b /\ Forall passive a /\ taker T /\ Forall usable b /\ (fg = true \/ quiet (T :: b)) /\ y = ([o], [k]).
    Definition open_lane (x : list handler * list nat) (y : list (option (finfo * str)) * list nat) : Prop :=
      exists a ca T b i d, fst x = a ++ T :: b /\ snd x = ca ++ length d :: zeros b /\ length ca = length a /\
        Forall passive a /\ taker T /\ working T i d /\ Forall usable b /\ (fg = true \/ quiet (T :: b) /\ Forall started b) /\ y = ([Some (i, d)], [length d]).
    Lemma lane_alike : alike G (coll false) file_truthy file_truthy same_file in_lane open_lane.
    Proof.
      constructor.
      - intros x y (a & ca & T & b & i & d & E1 & E2 & E3 & HA & HT & HW & HU & HQ & ->). exists a, T, b, (Some (i, d)), (length d). repeat split; try easy. tauto.
      - intros i len [hs cs] y (a & T & b & o & k & E1 & HA & HT & HU & HQ & ->). cbn [fst snd] in *. subst hs. unfold after_new.
        destruct (new_pass i len (T :: b) a HA) as (a' & A1 & A2 & ->).
        destruct (taker_new i T HT) as (r & T' & E & Hr & HT' & HW & HN). cbn [c_new]. rewrite go_new, E.
        assert (HZ : zeros (a ++ T :: b) = zeros a ++ 0 :: zeros b) by (unfold zeros; now rewrite map_app).
        assert (HLz : length (zeros a) = length a') by (unfold zeros; now rewrite map_length).
        destruct Hr as [-> | ->]; cbn [lift_new].
        + destruct (new_tail i len b HU) as (b' & E' & B1 & B2 & B3). rewrite E'. cbn [fst snd]. split; [reflexivity|].
          rewrite HZ. assert (HZ' : zeros b = zeros b').
          { revert B2. clear. revert b'. induction b as [|h b IH]; intros [|h' b']; cbn; try easy. intros H. f_equal. apply IH. lia. }
          exists a', (zeros a), T', b', i, []. rewrite HZ'. cbn [fst snd length]. repeat split; try easy.
          destruct HQ as [HQ|HQ]; [now left|right]. inversion HQ as [|?|? ? K1 K2]; subst.
          * destruct b'; [|discriminate]. split; constructor.
          * destruct (B3 K2) as [B4 B5]. split; [|exact B5]. apply quiet_more; [now apply HN|exact B4].
        + cbn [fst snd]. split; [reflexivity|]. rewrite HZ. exists a', (zeros a), T', b, i, []. cbn [fst snd length]. repeat split; try easy.
          destruct HQ as [HQ|HQ]; [now left|right]. inversion HQ as [|?|? ? K1 K2]; subst.
          * split; constructor.
          * destruct (HN K1). discriminate.
      - intros d [hs cs] y (a & ca & T & b & i & w & E1 & E2 & E3 & HA & HT & HW & HU & HQ & ->). cbn [fst snd] in *. subst hs cs.
        destruct (feed_pass d (T :: b) (length w :: zeros b) a ca HA E3) as (ca' & A1 & ->).
        destruct (taker_data i w d T HT HW) as (T' & E & HT' & HW' & HN). cbn [c_feed]. rewrite go_data, E. cbn [of_res fst snd coll o_data].
        split; [reflexivity|]. exists a, ca', T', b, i, (w ++ d). cbn [fst snd]. rewrite app_length. repeat split; try easy.
        destruct HQ as [HQ|[HQ HQ2]]; [now left|right]. split; [|exact HQ2]. inversion HQ as [|?|? ? K1 K2]; subst; [apply quiet_one|].
        apply quiet_more; [now apply HN|exact K2].
      - intros name [hs cs] y f1 f2 (a & ca & T & b & i & w & E1 & E2 & E3 & HA & HT & HW & HU & HQ & ->) Hf. cbv zeta. cbn [fst snd] in *. subst hs cs.
        rewrite (done_pass name f1 (T :: b) (length w :: zeros b) a ca HA E3).
        destruct (taker_done (length w) i w T HT HW) as (f & E & HM). cbn [c_complete]. rewrite go_done, E.
        assert (HT2 : file_truthy f = match w with [] => false | _ => true end).
        { unfold file_truthy. destruct HM as (_ & _ & -> & _). now destruct w. }
        rewrite HT2. cbn [coll o_done].
        assert (HI : forall o k, in_lane (a ++ T :: b, ca ++ length w :: zeros b) ([o], [k])).
        { intros o k. exists a, T, b, o, k. repeat split; try easy. tauto. }
        destruct w as [|x w].
        + cbn [length]. rewrite (done_tail name f1 b) by tauto. cbn. split; [exact Hf|]. apply HI.
        + cbn [fst snd]. unfold file_truthy at 1. cbn [uf_size length Nat.eqb negb]. cbn [fst snd same_cr]. split; [|apply HI].
          apply same_append; [exact Hf|]. destruct HM as (H1 & H2 & H3 & H4 & H5 & H6 & H7). now repeat split.
      - intros x y (a & T & b & o & k & E1 & HA & HT & HU & HQ & ->). rewrite g_close. cbn [fst snd coll c_close o_close]. split; [reflexivity|].
        exists a, T, b, o, k. now repeat split.
      - intros x y (a & T & b & o & k & E1 & HA & HT & HU & HQ & ->). now rewrite g_end.
    Qed.
  End Mode.
End Lanes.

(** the same file, kept in memory *)
Definition mem_file (f g : ufile) : Prop := same_file f g /\ in_memory f = true.
Section Strict.
  Context (mk_temp : str -> res unit) (Hmk : can_create mk_temp) (m : Z) (Hm : (0 <= m)%Z).
  Notation G := (gops mk_temp m false).
  (** the first handler keeps files in memory and the second is never told of one *)
  Definition in_strict (x : list handler * list nat) (y : list (option (finfo * str)) * list nat) : Prop :=
    exists c h b o k, fst x = HMem c :: h :: b /\ mh_activated c = Some true /\ h_complete 0 h = Err AttributeError /\ y = ([o], [k]).
  Definition open_strict (x : list handler * list nat) (y : list (option (finfo * str)) * list nat) : Prop :=
    exists c h b i d, fst x = HMem c :: h :: b /\ snd x = length d :: 0 :: zeros b /\ mh_activated c = Some true /\ h_complete 0 h = Err AttributeError /\
      mh_info c = Some i /\ mh_file c = Some d /\ y = ([Some (i, d)], [length d]).
  Lemma strict_alike : alike G (coll true) file_truthy file_truthy mem_file in_strict open_strict.
  Proof.
    constructor.
    - intros x y (c & h & b & i & d & E1 & E2 & E3 & E4 & E5 & E6 & ->). now exists c, h, b, (Some (i, d)), (length d).
    - intros i len [hs cs] y (c & h & b & o & k & E1 & E2 & E3 & ->). cbn [fst snd] in *. subst hs. unfold after_new. cbn [c_new]. rewrite go_new.
      cbn [h_new_file]. unfold mem_new_file. rewrite E2. cbn [lift_new fst snd]. split; [reflexivity|].
      now exists (mkMem (Some true) (Some i) (Some [])), h, b, i, [].
    - intros d [hs cs] y (c & h & b & i & w & E1 & E2 & E3 & E4 & E5 & E6 & ->). cbn [fst snd] in *. subst hs cs. cbn [c_feed]. rewrite go_data.
      cbn [h_receive]. unfold mem_receive. rewrite E3, E6. cbn [of_res fst snd coll o_data]. split; [reflexivity|].
      exists (mkMem (Some true) (mh_info c) (Some (w ++ d))), h, b, i, (w ++ d). cbn [fst snd]. rewrite app_length. now repeat split.
    - intros name [hs cs] y f1 f2 (c & h & b & i & w & E1 & E2 & E3 & E4 & E5 & E6 & ->) Hf. cbv zeta. cbn [fst snd] in *. subst hs cs.
      cbn [c_complete]. rewrite !go_done. cbn [h_complete]. unfold mem_complete. rewrite E3, E6, E5. cbn [coll o_done].
      assert (HI : forall o k, in_strict (HMem c :: h :: b, length w :: 0 :: zeros b) ([o], [k])).
      { intros o k. now exists c, h, b, o, k. }
      destruct w as [|x w].
      + unfold file_truthy at 1. cbn [uf_size length Nat.eqb negb]. rewrite E4. cbn. split; [reflexivity|]. apply HI.
      + unfold file_truthy at 1. cbn [uf_size length Nat.eqb negb]. cbn [fst snd]. unfold file_truthy at 1. cbn [uf_size length Nat.eqb negb]. cbn [fst snd same_cr].
        split; [|apply HI]. apply same_append; [exact Hf|]. now repeat split.
    - intros x y (c & h & b & o & k & E1 & E2 & E3 & ->). rewrite g_close. cbn [fst snd coll c_close o_close]. split; [reflexivity|].
      now exists c, h, b, o, k.
    - intros x y (c & h & b & o & k & E1 & E2 & E3 & ->). now rewrite g_end.
  Qed.
End Strict.

(** ** Lists of handler classes *)
(** the handlers that take files: MemoryFileUploadHandler only when the announced length is within its limit *)
Definition takes (len m : Z) (k : hkind) : Prop := match k with KMem => (len <= m)%Z | _ => True end.
(** those that keep the others from hearing of a file *)
Definition alone (len m : Z) (k : hkind) : Prop := match k with KMem => (len <= m)%Z | KConv => True | KTemp => False end.
(** somebody takes the files, and nobody comes after a handler that keeps them for itself *)
Definition setup (len m : Z) (ks : list hkind) : Prop :=
  Exists (takes len m) ks /\ forall a k b, ks = a ++ k :: b -> alone len m k -> b = [].

Section Kinds.
  Context (mk_temp : str -> res unit) (m : Z) (Hm : (0 <= m)%Z) (len : Z).
  Definition begun (k : hkind) : handler := h_raw_input (Some m) len (new_handler k).
  Lemma begun_takes k : takes len m k -> taker (begun k).
  Proof.
    destruct k; cbn; intros H; [f_equal; lia|exact I|]. unfold conv_ok, conv_raw_input. cbn. split; [f_equal; lia|reflexivity].
  Qed.
  Lemma begun_not k : ~ takes len m k -> passive (begun k).
  Proof. destruct k; cbn; intros H; [f_equal; lia| |]; tauto. Qed.
  Lemma begun_usable k : usable (begun k).
  Proof.
    destruct k; [|right; exact I|right; apply (begun_takes KConv I)].
    destruct (Z.leb_spec len m) as [H|H]; [right; now apply (begun_takes KMem)|left; apply (begun_not KMem); cbn; lia].
  Qed.
  Lemma begun_nostop k : ~ alone len m k -> nostop (begun k).
  Proof. destruct k; cbn; intros H; [left; cbn; f_equal; lia|right; now eexists|tauto]. Qed.
  Lemma begun_quiet : forall ks, (forall a k b, ks = a ++ k :: b -> alone len m k -> b = []) -> quiet (map begun ks).
  Proof.
    induction ks as [|k ks IH]; intros H; [constructor|]. cbn [map].
    assert (HA : alone len m k \/ ~ alone len m k) by (destruct k; cbn; lia || tauto).
    destruct HA as [HA|HA].
    - rewrite (H [] k ks eq_refl HA). apply quiet_one.
    - apply quiet_more; [now apply begun_nostop|]. apply IH. intros a k' b E. apply (H (k :: a) k' b). now rewrite E.
  Qed.
  Lemma takes_dec k : {takes len m k} + {~ takes len m k}.
  Proof. destruct k; cbn; [|now left|now left]. destruct (Z_le_dec len m); [now left|now right]. Defined.
  Lemma first_taker : forall ks, Exists (takes len m) ks -> exists a k b, ks = a ++ k :: b /\ takes len m k /\ Forall (fun k => ~ takes len m k) a.
  Proof.
    induction ks as [|k ks IH]; intros H; [inversion H|]. destruct (takes_dec k) as [HT|HT].
    - exists [], k, ks. split; [reflexivity|]. split; [exact HT|constructor].
    - inversion H as [? ? H1|? ? H1]; subst; [contradiction|]. destruct (IH H1) as (a & k' & b & -> & H2 & H3). exists (k :: a), k', b.
      split; [reflexivity|]. split; [exact H2|]. now constructor.
  Qed.
  Lemma raw_begun fg : forall ks, c_raw (gops mk_temp m fg) len (map new_handler ks) = (Good None, map begun ks).
  Proof.
    induction ks as [|k ks IH]; [reflexivity|]. cbn [map c_raw]. change (o_raw (gops mk_temp m fg) len (new_handler k)) with (@Good (option Empty_set) None, begun k).
    cbv beta iota. now rewrite IH.
  Qed.
End Kinds.

(** the same outcome, files aside from where they are kept *)
Definition as_collected (a b : cr (outcome (F := ufile) (X := Empty_set))) : Prop := same_cr (same_outcome same_file (fun _ _ => False)) a b.
Lemma lane_parse {R} rd exh reg name2cp mk_temp st m D fuel len csize ks (r : R) fg : can_create mk_temp -> (0 <= m)%Z ->
  Exists (takes len m) ks -> (fg = true \/ setup len m ks) ->
  let a := c_parse rd exh reg name2cp st D fuel (gops mk_temp m fg) file_truthy len csize (map new_handler ks) r in
  let b := c_parse rd exh reg name2cp st D fuel (coll false) file_truthy len csize [None] r in
  as_collected (fst (fst a)) (fst (fst b)) /\ snd a = snd b.
Proof.
  intros Hmk Hm HE HF. apply (par_parse _ _ _ _ _ _ _ _ (lane_alike mk_temp Hmk m fg) rd exh reg name2cp st st D fuel eq_refl eq_refl eq_refl); [easy| |].
  - now rewrite raw_begun.
  - rewrite raw_begun. cbn [fst snd c_raw coll o_raw zeros map]. destruct (first_taker m len ks HE) as (a & k & b & E & HT & HA).
    exists (map (begun m len) a), (begun m len k), (map (begun m len) b), None, 0. cbn [fst]. rewrite E, map_app. split; [reflexivity|].
    split; [apply Forall_map; eapply Forall_impl; [|exact HA]; intros x; now apply begun_not|].
    split; [now apply begun_takes|]. split; [apply Forall_map, Forall_forall; intros x _; now apply begun_usable|]. split; [|reflexivity].
    destruct HF as [HF|[_ HF]]; [now left|right]. apply (begun_quiet m len (k :: b)). intros a' k' b' E'. apply (HF (a ++ a') k' b').
    rewrite E, E'. now rewrite <- app_assoc.
Qed.
Lemma strict_parse0 {R} rd exh reg name2cp mk_temp st m D fuel len csize k ks (r : R) : (0 <= m)%Z -> (len <= m)%Z ->
  let a := c_parse rd exh reg name2cp st D fuel (gops mk_temp m false) file_truthy len csize (map new_handler (KMem :: k :: ks)) r in
  let b := c_parse rd exh reg name2cp st D fuel (coll true) file_truthy len csize [None] r in
  same_cr (same_outcome mem_file (fun _ _ => False)) (fst (fst a)) (fst (fst b)) /\ snd a = snd b.
Proof.
  intros Hm Hl. apply (par_parse _ _ _ _ _ _ _ _ (strict_alike mk_temp m) rd exh reg name2cp st st D fuel eq_refl eq_refl eq_refl); [easy| |].
  - now rewrite raw_begun.
  - rewrite raw_begun. cbn [fst snd c_raw coll o_raw zeros map]. eexists _, _, _, None, 0. cbn [fst]. split; [reflexivity|].
    split; [cbn; f_equal; lia|]. split; [|reflexivity]. destruct k; cbn.
    + unfold mem_complete. cbn. now replace (Z.leb len m) with true by lia.
    + reflexivity.
    + unfold mem_complete. cbn. now replace (Z.leb 0 m) with true by lia.
Qed.

Lemma strict_parse {R} rd exh reg name2cp mk_temp st m D fuel len csize k ks (r : R) : (0 <= m)%Z -> (len <= m)%Z ->
  let a := c_parse rd exh reg name2cp st D fuel (gops mk_temp m false) file_truthy len csize (map new_handler (KMem :: k :: ks)) r in
  let b := c_parse rd exh reg name2cp st D fuel (coll true) file_truthy len csize [None] r in
  as_collected (fst (fst a)) (fst (fst b)) /\ snd a = snd b.
Proof.
  intros Hm Hl. cbv zeta. destruct (strict_parse0 rd exh reg name2cp mk_temp st m D fuel len csize k ks r Hm Hl) as [H1 H2]. split; [|exact H2].
  destruct (fst (fst (c_parse rd exh reg name2cp st D fuel (gops mk_temp m false) file_truthy len csize (map new_handler (KMem :: k :: ks)) r))) as [[x|post files]|x],
    (fst (fst (c_parse rd exh reg name2cp st D fuel (coll true) file_truthy len csize [None] r))) as [[y|post2 files2]|y]; try easy.
  cbn in H1 |- *. destruct H1 as [-> H1]. split; [reflexivity|]. clear - H1. induction H1 as [|d1 d2 l1 l2 [E H] H1 IH]; constructor; [|exact IH].
  split; [exact E|]. clear - H. induction H as [|f g l l' [H _] _ IH]; now constructor.
Qed.

(** a handler that fails in file_complete, and one that says None there *)
Section Or.
  Context (mk_temp : str -> res unit) (m : Z).
  Notation G := (gops mk_temp m false).
  Notation G1 := (gops mk_temp m true).
  Lemma or_complete name f : forall hs cs, c_complete G file_truthy name hs cs f = c_complete G1 file_truthy name hs cs f \/
    fst (c_complete G file_truthy name hs cs f) = Bad (CExn AttributeError).
  Proof.
    induction hs as [|h hs IH]; intros [|c cs]; try (now left). cbn [c_complete]. rewrite !go_done.
    destruct (h_complete c h) as [[g|]|e] eqn:E.
    - destruct (file_truthy g); [now left|]. destruct (IH cs) as [->|H]; [now left|right].
      now destruct (c_complete G file_truthy name hs cs f).
    - destruct (IH cs) as [->|H]; [now left|right]. now destruct (c_complete G file_truthy name hs cs f).
    - right. now rewrite (complete_err c h e E).
  Qed.
  Lemma or_finish p : c_finish G file_truthy p = c_finish G1 file_truthy p \/ fst (c_finish G file_truthy p) = Bad (CExn AttributeError).
  Proof.
    unfold c_finish. destruct (c_old p) as [|x l]; [now left|].
    destruct (or_complete (x :: l) (c_files p) (c_hs p) (c_counters p)) as [->|H]; [now left|right].
    destruct (c_complete G file_truthy (x :: l) (c_hs p) (c_counters p) (c_files p)) as [[u|e] hs]; [discriminate|]. cbn [fst] in H |- *. congruence.
  Qed.
  Context {R : Type} (rd : nat -> R -> res str * R) (exh : R -> res unit * R) (reg : registry) (name2cp : str -> option N) (st : mset) (D : str) (fuel : nat).
  Lemma or_loop : forall n p s, c_loop rd reg name2cp st D fuel G file_truthy n p s = c_loop rd reg name2cp st D fuel G1 file_truthy n p s \/
    fst (fst (c_loop rd reg name2cp st D fuel G file_truthy n p s)) = Bad (CExn AttributeError).
  Proof.
    induction n as [|n IH]; intros p s; [now left|]. cbn [c_loop].
    destruct (bi_init (ci_next rd) fuel s D) as [[b|e] s1]; [|now left].
    destruct (parse_boundary_stream rd reg fuel (ls_init b None)) as [[[ty h]|e] s2]; [|now left].
    destruct (or_finish p) as [->|H].
    - destruct (c_finish G1 file_truthy p) as [[u|x] p1]; [|now left].
      change (c_part rd reg name2cp st fuel G1 ty h p1 s2) with (c_part rd reg name2cp st fuel G ty h p1 s2).
      destruct (c_part rd reg name2cp st fuel G ty h p1 s2) as [[[v|x] p2] s3]; [apply IH|now left].
    - right. destruct (c_finish G file_truthy p) as [[u|x] p1]; [discriminate|]. injection H as ->. reflexivity.
  Qed.
  Lemma or_parse len csize ks (r : R) :
    c_parse rd exh reg name2cp st D fuel G file_truthy len csize (map new_handler ks) r =
    c_parse rd exh reg name2cp st D fuel G1 file_truthy len csize (map new_handler ks) r \/
    fst (fst (c_parse rd exh reg name2cp st D fuel G file_truthy len csize (map new_handler ks) r)) = Bad (CExn AttributeError).
  Proof.
    unfold c_parse. cbv zeta. rewrite !raw_begun. destruct (querydict reg (Some (ms_query st)) None true) as [qd|e]; [|now left].
    destruct (Z.eqb len 0); [now left|].
    match goal with |- context [c_loop rd reg name2cp st D fuel G file_truthy fuel ?p ?s] => destruct (or_loop fuel p s) as [->|H];
      [|right; destruct (c_loop rd reg name2cp st D fuel G file_truthy fuel p s) as [[x p1] s1]; cbn [fst] in H; now subst x] end.
    left. match goal with |- context [c_loop rd reg name2cp st D fuel G1 file_truthy fuel ?p ?s] => destruct (c_loop rd reg name2cp st D fuel G1 file_truthy fuel p s) as [[[u|x] p1] s1] end.
    - destruct (exh (input_of r s1)) as [[v|e] r1]; [|reflexivity]. unfold c_return. now rewrite !g_end.
    - now destruct x.
  Qed.
End Or.

(** ** C128 *)
(** the same POST and files, aside from where the files are kept, or the same exception *)
Definition same_parse {R} (a b : res (dict (list entry) * dict (list ufile)) * R) : Prop :=
  match fst a, fst b with
  | Ok (post1, files1), Ok (post2, files2) => post1 = post2 /\ map fst files1 = map fst files2 /\ forall k, Forall2 same_file (getl k files1) (getl k files2)
  | Err e1, Err e2 => e1 = e2
  | _, _ => False
  end /\ snd a = snd b.
Lemma file_trans f g h : same_file f h -> same_file g h -> same_file f g.
Proof. unfold same_file. intros (? & ? & ? & ? & ? & ? & ?) (? & ? & ? & ? & ? & ? & ?). repeat split; congruence. Qed.
Lemma files_trans k (d1 d2 d3 : dict (list ufile)) : same_files same_file d1 d3 -> same_files same_file d2 d3 ->
  map fst d1 = map fst d2 /\ Forall2 same_file (getl k d1) (getl k d2).
Proof.
  intros H1 H2. split.
  - assert (HK : forall d d' : dict (list ufile), same_files same_file d d' -> map fst d = map fst d').
    { clear. induction 1 as [|x y d d' [E _] _ IH]; [reflexivity|]. cbn. now rewrite E, IH. }
    now rewrite (HK _ _ H1), (HK _ _ H2).
  - pose proof (same_files_get same_file k _ _ H1) as G1. pose proof (same_files_get same_file k _ _ H2) as G2. unfold getl.
    destruct (dget k d1) as [l1|], (dget k d2) as [l2|], (dget k d3) as [l3|]; try easy.
    clear H1 H2. revert l2 G2. induction G1 as [|x z l1 l3 Hx _ IH]; intros l2 G2; inversion G2 as [|y ? l2' ? Hy HY]; subst; constructor.
    + exact (file_trans x y z Hx Hy).
    + now apply IH.
Qed.
Lemma mp_as_custom {R} rd exh reg name2cp mk_temp st m D fuel csize len hs (r : R) : ms_fmem st = Some m ->
  let x := mp_parse rd exh reg name2cp mk_temp st D fuel csize len hs r in
  let o := c_parse rd exh reg name2cp st D fuel (gops mk_temp m false) file_truthy len csize hs r in
  match fst x with Ok (post, files) => fst (fst o) = Good (Parsed post files) | Err e => fst (fst o) = Bad (CExn e) end /\ snd x = snd o.
Proof. intros Hf. pose proof (lib_parse rd exh reg name2cp mk_temp st D fuel csize len hs r) as H. rewrite Hf in H. exact H. Qed.
Lemma collected_same {R} rd exh reg name2cp mk_temp st m D fuel csize len ks1 ks2 (r : R) (o : cr outcome * list (option (finfo * str)) * R) : ms_fmem st = Some m ->
  let c ks := c_parse rd exh reg name2cp st D fuel (gops mk_temp m false) file_truthy len csize (map new_handler ks) r in
  as_collected (fst (fst (c ks1))) (fst (fst o)) /\ snd (c ks1) = snd o -> as_collected (fst (fst (c ks2))) (fst (fst o)) /\ snd (c ks2) = snd o ->
  same_parse (mp_parse rd exh reg name2cp mk_temp st D fuel csize len (map new_handler ks1) r)
             (mp_parse rd exh reg name2cp mk_temp st D fuel csize len (map new_handler ks2) r).
Proof.
  intros Hf. cbv zeta. destruct (mp_as_custom rd exh reg name2cp mk_temp st m D fuel csize len (map new_handler ks1) r Hf) as [A1 A2].
  destruct (mp_as_custom rd exh reg name2cp mk_temp st m D fuel csize len (map new_handler ks2) r Hf) as [B1 B2].
  intros [H1 H2] [H3 H4]. split; [|congruence].
  destruct (fst (mp_parse rd exh reg name2cp mk_temp st D fuel csize len (map new_handler ks1) r)) as [[post1 files1]|e1],
    (fst (mp_parse rd exh reg name2cp mk_temp st D fuel csize len (map new_handler ks2) r)) as [[post2 files2]|e2];
    rewrite A1 in H1; rewrite B1 in H3; destruct (fst (fst o)) as [[x|post files]|x]; cbn in H1, H3; try easy; try congruence.
  destruct H1 as [-> H1], H3 as [-> H3]. split; [reflexivity|]. split; [apply (files_trans [] _ _ _ H1 H3)|].
  intros k. apply (files_trans k _ _ _ H1 H3).
Qed.

(** any two lists of handlers with which somebody takes the files, and nobody comes after a handler that keeps
    them for itself: the same result for every input *)
Theorem C128_same_partial :
  forall R rd exh reg name2cp mk_temp st m D fuel csize len ks1 ks2 (r : R),
  can_create mk_temp -> ms_fmem st = Some m -> (0 <= m)%Z -> setup len m ks1 -> setup len m ks2 ->
  same_parse (mp_parse rd exh reg name2cp mk_temp st D fuel csize len (map new_handler ks1) r)
             (mp_parse rd exh reg name2cp mk_temp st D fuel csize len (map new_handler ks2) r).
Proof.
  intros R rd exh reg name2cp mk_temp st m D fuel csize len ks1 ks2 r Hmk Hf Hm H1 H2. eapply collected_same; [exact Hf| |].
  - apply lane_parse; [exact Hmk|exact Hm|apply H1|now right].
  - apply lane_parse; [exact Hmk|exact Hm|apply H2|now right].
Qed.
Print Assumptions C128_same_partial.
(** whatever comes after: the same result, or AttributeError *)
Theorem C128_or_error_partial :
  forall R rd exh reg name2cp mk_temp st m D fuel csize len ks1 ks2 (r : R),
  can_create mk_temp -> ms_fmem st = Some m -> (0 <= m)%Z -> Exists (takes len m) ks1 -> setup len m ks2 ->
  same_parse (mp_parse rd exh reg name2cp mk_temp st D fuel csize len (map new_handler ks1) r)
             (mp_parse rd exh reg name2cp mk_temp st D fuel csize len (map new_handler ks2) r) \/
  fst (mp_parse rd exh reg name2cp mk_temp st D fuel csize len (map new_handler ks1) r) = Err AttributeError.
Proof.
  intros R rd exh reg name2cp mk_temp st m D fuel csize len ks1 ks2 r Hmk Hf Hm H1 H2.
  destruct (or_parse mk_temp m rd exh reg name2cp st D fuel len csize ks1 r) as [H|H].
  - left. eapply collected_same; [exact Hf| |].
    + rewrite H. apply lane_parse; [exact Hmk|exact Hm|exact H1|now left].
    + apply lane_parse; [exact Hmk|exact Hm|apply H2|now right].
  - right. destruct (mp_as_custom rd exh reg name2cp mk_temp st m D fuel csize len (map new_handler ks1) r Hf) as [A1 _].
    destruct (fst (mp_parse rd exh reg name2cp mk_temp st D fuel csize len (map new_handler ks1) r)) as [[post files]|e]; rewrite A1 in H; congruence.
Qed.
Print Assumptions C128_or_error_partial.

(** MemoryFileUploadHandler before others, with an announced length within the limit: every file is kept in
    memory, however long it is *)
Theorem C94_announced_refuted :
  forall R rd exh reg name2cp mk_temp st m D fuel csize len k ks (r : R) post files r',
  ms_fmem st = Some m -> (0 <= m)%Z -> (len <= m)%Z ->
  mp_parse rd exh reg name2cp mk_temp st D fuel csize len (map new_handler (KMem :: k :: ks)) r = (Ok (post, files), r') ->
  forall n f, In f (getl n files) -> in_memory f = true.
Proof.
  intros R rd exh reg name2cp mk_temp st m D fuel csize len k ks r post files r' Hf Hm Hl HP n f Hin.
  destruct (mp_as_custom rd exh reg name2cp mk_temp st m D fuel csize len (map new_handler (KMem :: k :: ks)) r Hf) as [A1 _]. rewrite HP in A1. cbn [fst] in A1.
  destruct (strict_parse0 rd exh reg name2cp mk_temp st m D fuel len csize k ks r Hm Hl) as [H _]. rewrite A1 in H.
  destruct (fst (fst (c_parse rd exh reg name2cp st D fuel (coll true) file_truthy len csize [None] r))) as [[x|p2 f2]|x]; cbn in H; try easy.
  destruct H as [_ H]. pose proof (same_files_get _ n _ _ H) as HG. unfold getl in Hin. destruct (dget n files) as [l|]; [|easy].
  destruct (dget n f2) as [l2|]; [|easy]. clear - HG Hin. induction HG as [|a b l l2 [_ E] _ IH]; [easy|]. destruct Hin as [<-|Hin]; [exact E|now apply IH].
Qed.
Print Assumptions C94_announced_refuted.

(** ** What is missing *)
(** when nobody takes the files, they are lost without a word *)
Lemma nobody_alike mk_temp m : alike (gops mk_temp m false) (coll false) file_truthy file_truthy (fun _ _ => False)
  (fun x y => Forall passive (fst x) /\ length (snd x) = length (fst x) /\ y = ([], []))
  (fun x y => Forall passive (fst x) /\ length (snd x) = length (fst x) /\ y = ([], [])).
Proof.
  constructor.
  - easy.
  - intros i len [hs cs] y (HP & HL & ->). cbn [fst snd] in *. destruct (new_pass mk_temp m false i len [] hs HP) as (a' & A1 & A2 & A3).
    rewrite app_nil_r in A3. cbn [c_new] in A3. unfold after_new. rewrite A3. cbn [fst snd]. rewrite app_nil_r. repeat split; try easy.
    unfold zeros. now rewrite map_length.
  - intros d [hs cs] y (HP & HL & ->). cbn [fst snd] in *. destruct (feed_pass mk_temp m false d [] [] hs cs HP HL) as (ca & A1 & A2).
    rewrite !app_nil_r in A2. cbn [c_feed] in A2. rewrite A2. cbn [fst snd]. rewrite !app_nil_r. now repeat split.
  - intros name [hs cs] y f1 f2 (HP & HL & ->) Hf. cbv zeta. cbn [fst snd] in *. pose proof (done_pass mk_temp m false name f1 [] [] hs cs HP HL) as A.
    rewrite !app_nil_r in A. cbn [c_complete] in A. rewrite A. cbn [fst snd]. rewrite app_nil_r. now repeat split.
  - intros x y (HP & HL & ->). rewrite g_close. now repeat split.
  - intros x y (HP & HL & ->). now rewrite g_end.
Qed.
Theorem C128_nobody_refuted :
  forall R rd exh reg name2cp mk_temp st m D fuel csize len ks (r : R) post files r',
  ms_fmem st = Some m -> Forall (fun k => ~ takes len m k) ks ->
  mp_parse rd exh reg name2cp mk_temp st D fuel csize len (map new_handler ks) r = (Ok (post, files), r') ->
  forall k, getl k files = [].
Proof.
  intros R rd exh reg name2cp mk_temp st m D fuel csize len ks r post files r' Hf HN HP k.
  destruct (mp_as_custom rd exh reg name2cp mk_temp st m D fuel csize len (map new_handler ks) r Hf) as [A1 _]. rewrite HP in A1. cbn [fst] in A1.
  destruct (par_parse _ _ _ _ _ (fun _ _ => False) _ _ (nobody_alike mk_temp m) rd exh reg name2cp st st D fuel eq_refl eq_refl eq_refl
              len len csize (map new_handler ks) [] r) as [H _]; [easy| | |].
  - now rewrite raw_begun.
  - rewrite raw_begun. cbn [fst snd c_raw]. split; [|split; [unfold zeros; now rewrite map_length|reflexivity]].
    apply Forall_map. eapply Forall_impl; [|exact HN]. intros x. apply begun_not.
  - rewrite A1 in H. destruct (fst (fst (c_parse rd exh reg name2cp st D fuel (coll false) file_truthy len csize [] r))) as [[x|p2 f2]|x]; cbn in H; try easy.
    destruct H as [_ H]. pose proof (same_files_get _ k _ _ H) as HG. unfold getl. destruct (dget k files) as [l|]; [|reflexivity].
    destruct (dget k f2) as [l2|]; [|easy]. destruct HG; easy.
Qed.
Print Assumptions C128_nobody_refuted.

From Verif Require Import MultipartSem MultipartSpec BoundarySpec FormFacts BodySpec BodyFacts CustomSem CustomFacts CustomRun PropsData PropsDelim PartErrors PropsLost PropsRequest.
(** the handler for memory before another one: a file without content breaks the parse *)
Section StrictRun.
  Context (reg : registry) (st : mset).
  Notation C := (coll true).
  Definition single (p : cst (option (finfo * str)) ufile) : Prop := exists h k, c_hs p = [h] /\ c_counters p = [k].
  Definition pending (p : cst (option (finfo * str)) ufile) : Prop := c_old p <> [] /\ exists i k, c_hs p = [Some (i, [])] /\ c_counters p = [k].
  Lemma pending_bad its p o : pending p -> its <> [] -> grun reg st C file_truthy its p o -> exists x, fst o = Bad x.
  Proof.
    intros (Ho & i & k & Hh & Hc) Hi HR.
    assert (HF : exists p1, c_finish C file_truthy p = (Bad (CExn AttributeError), p1)).
    { unfold c_finish. destruct (c_old p) as [|x l]; [now contradiction Ho|]. rewrite Hh, Hc. cbn. now eexists. }
    destruct HF as [p1 HF]. inversion HR as [|? ? ? x ? HB|? ? ? p' ? HB HR2]; subst; [now contradiction Hi|now exists x|].
    unfold gitem in HB. rewrite HF in HB. destruct HB as [[(e & _ & H)|H]|[(e & _ & H)|H]]; discriminate.
  Qed.
  Lemma finish_single p : single p -> single (snd (c_finish C file_truthy p)).
  Proof.
    intros (h & k & Hh & Hc). unfold c_finish. destruct (c_old p) as [|x l]; [now exists h, k|]. rewrite Hh, Hc.
    destruct h as [[i [|y w]]|]; cbn; try (destruct (file_truthy _)); unfold single; cbn; rewrite ?Hc; eexists _, _; split; reflexivity.
  Qed.
  Lemma feed_single i w : forall ds k, exists k', c_feed_all C ds [Some (i, w)] [k] = (Good tt, ([Some (i, w ++ concat ds)], [k'])).
  Proof.
    induction ds as [|d ds IH] in w |- *; intros k; cbn [c_feed_all concat]; [rewrite app_nil_r; now exists k|].
    cbn. destruct (IH (w ++ d) (k + length d)) as (k' & E). exists k'. rewrite <- app_assoc in E. exact E.
  Qed.
  Lemma item_single it p o : single p -> gitem reg st C file_truthy it p o -> forall p', o = GDone p' \/ o = GSkip p' ->
    single p' /\ forall i, it = KFile i [] -> fi_field i <> [] -> pending p'.
  Proof.
    intros HS [(e & -> & ->)|HG] p' Hp; [now destruct Hp|]. pose proof (finish_single p HS) as H1.
    destruct (c_finish C file_truthy p) as [[u|x] p1]; [|subst o; now destruct Hp]. cbn [snd] in H1.
    destruct it as [e| |name tenc h payload|i w].
    - subst o. now destruct Hp.
    - subst o. destruct Hp as [Hp|Hp]; [discriminate|]. injection Hp as <-. now split.
    - subst o. destruct (field_step reg st name tenc h (c_core p1) payload) as [core|e]; [|now destruct Hp].
      destruct Hp as [Hp|Hp]; [|discriminate]. injection Hp as <-. now split.
    - destruct HG as (len & ds & <- & ->). destruct H1 as (h & k & Hh & Hc). unfold g_pieces in Hp. rewrite Hh in Hp. cbn in Hp.
      destruct (feed_single i [] ds 0) as (k' & E). cbn in E. unfold str in *. rewrite E in Hp. cbn in Hp. destruct Hp as [Hp|Hp]; [|discriminate]. injection Hp as <-.
      split; [unfold single; cbn; now eexists _, _|]. intros i' E' Hn. injection E' as <- E'. rewrite E' in *. cbn. split; [exact Hn|]. cbn. now exists i, k'.
  Qed.
  Lemma strict_run i it b : fi_field i <> [] -> forall a p o, single p -> grun reg st C file_truthy (a ++ KFile i [] :: it :: b) p o -> exists x, fst o = Bad x.
  Proof.
    intros Hi. induction a as [|x a IH]; intros p o HS HR; cbn [app] in HR; inversion HR as [|? ? ? y ? HB|? ? ? p' ? HB HR2]; subst.
    - now exists y.
    - assert (HX : single p' /\ forall i0, KFile i [] = KFile i0 [] -> fi_field i0 <> [] -> pending p').
      { destruct HB as [HB|HB]; [apply (item_single _ p _ HS HB p'); now left|apply (item_single _ p _ HS HB p'); now right]. }
      apply (pending_bad (it :: b) p' o); [now apply (proj2 HX i)|discriminate|exact HR2].
    - now exists y.
    - assert (HX : single p').
      { destruct HB as [HB|HB]; [apply (item_single _ p _ HS HB p'); now left|apply (item_single _ p _ HS HB p'); now right]. }
      now apply (IH p' o).
  Qed.
End StrictRun.
(** for every form with a file without content that the default handler accepts *)
Theorem C128_memory_first_refuted :
  forall reg name2cp mk_temp st m D ps1 p ps2 f s csize len fuel k ks x,
  settings_ok reg st m -> can_create mk_temp -> delimiter D ->
  Forall (part_ok D) (ps1 ++ ps2) -> head_ok p -> ~ occurs D (render_part p) ->
  pt_file p = Some f -> ~ In 38%N f -> ~ In 92%N f -> pt_raw p = [] -> pt_name p <> [] -> (len <= m)%Z ->
  arrives s (render_form D (ps1 ++ p :: ps2)) csize len fuel ->
  fst (parse_src reg name2cp mk_temp st D fuel csize len (map new_handler [KConv]) s) = Ok x ->
  fst (parse_src reg name2cp mk_temp st D fuel csize len (map new_handler (KMem :: k :: ks)) s) = Err AttributeError.
Proof.
  intros reg name2cp mk_temp st m D ps1 p ps2 f s csize len fuel k ks x HS Hmk HD HP HH Ho Hf Ha Hb Hr Hn Hl (A1 & A2 & A3 & A4 & A5) HX.
  assert (Hit : exists i, item_of reg name2cp (render_part p) (KFile i []) /\ fi_field i = pt_name p).
  { destruct (part_class reg name2cp p HH) as (h & E1 & _ & E2). destruct (E2 f Hf Ha Hb) as (i & E3 & E4 & _).
    exists i. split; [|exact E4]. unfold item_of. rewrite E1, E3. exists []. split; [|reflexivity]. rewrite Hr. now destruct (pt_b64 p). }
  destruct Hit as (i & Hit & Hi). pose proof HS as (_ & Hst & Hm & _). destruct (settings_qd reg st m HS) as [qd Hq].
  unfold parse_src in *.
  destruct (C128_or_error_partial _ src_read it_exhaust reg name2cp mk_temp st m D fuel csize len (KMem :: k :: ks) [KConv] s Hmk Hst Hm) as [H|H].
  { constructor. exact Hl. }
  { split; [now constructor|]. intros [|? [|? ?]] ? ? E; try discriminate. now injection E. }
  2: exact H.
  exfalso. destruct H as [H _]. rewrite HX in H. destruct x as [post files].
  destruct (mp_as_custom src_read it_exhaust reg name2cp mk_temp st m D fuel csize len (map new_handler (KMem :: k :: ks)) s Hst) as [B1 _].
  destruct (fst (mp_parse src_read it_exhaust reg name2cp mk_temp st D fuel csize len (map new_handler (KMem :: k :: ks)) s)) as [[post1 files1]|e]; [|exact H].
  destruct (strict_parse src_read it_exhaust reg name2cp mk_temp st m D fuel len csize k ks s Hm Hl) as [G1 _]. rewrite B1 in G1.
  destruct (c_parse_sem reg name2cp st D (delim_dok D HD) (coll true) file_truthy s csize len [None] [None] qd fuel A3 A2 Hq A4 ltac:(unfold enough; rewrite A1; exact A5) eq_refl)
    as (o & HG & HR & _). rewrite A1 in HG.
  pose proof (form_splits_with D ps1 p ps2 HD HP Ho) as S1. pose proof HP as HP'. apply Forall_app in HP' as [HP1 HP2].
  destruct (form_items reg name2cp D ps1 HD HP1) as (i1 & I1 & _ & I2).
  destruct (form_items reg name2cp D ps2 HD HP2) as (i2 & J1 & _ & J2).
  assert (HT : item_of reg name2cp tail_piece KSkip /\ small tail_piece KSkip).
  { split; [reflexivity|]. apply small_short. unfold head_size. cbn. lia. }
  assert (HO : item_of reg name2cp [] KSkip /\ small [] KSkip).
  { split; [reflexivity|]. apply small_short. unfold head_size. cbn. lia. }
  assert (F1 : forall P : str -> item -> Prop, Forall2 P (map render_part ps1) i1 -> Forall2 P (map render_part ps2) i2 ->
     P [] KSkip -> P (render_part p) (KFile i []) -> P tail_piece KSkip ->
     Forall2 P ([] :: map render_part ps1 ++ render_part p :: map render_part ps2 ++ [tail_piece]) ((KSkip :: i1) ++ KFile i [] :: i2 ++ [KSkip])).
  { intros P P1 P2 Q1 Q2 Q3. cbn [app]. constructor; [easy|]. apply Forall2_app; [easy|]. constructor; [easy|]. apply Forall2_app; [easy|]. now constructor. }
  pose proof (gparses_run reg name2cp st (coll true) file_truthy D _ _ S1 _ (F1 _ I1 J1 (proj1 HO) Hit (proj1 HT))
                (F1 _ I2 J2 (proj2 HO) ltac:(discriminate) (proj2 HT)) _ _ HG) as HRun.
  assert (HB : exists y, fst o = Bad y).
  { destruct (i2 ++ [KSkip]) as [|it b] eqn:E; [now destruct i2|].
    apply (strict_run reg st i it b ltac:(congruence) (KSkip :: i1) (c_begin [None]) o); [|exact HRun]. unfold single. cbn. now eexists _, _. }
  destruct HB as [y HB]. rewrite HR in G1. destruct o as [[u|z] p1]; [discriminate|]. unfold c_result in G1.
  destruct z as [e| |reset|]; cbn in G1; try contradiction.
  pose proof (never_stops_run reg st (coll true) file_truthy) as HNS.
  assert (HN : never_stops (coll true)).
  { repeat split; cbn; try easy; intros; repeat match goal with |- context [match ?x with _ => _ end] => destruct x end; easy. }
  specialize (HNS HN _ _ _ HRun). cbn in HNS. exact HNS.
Qed.
Print Assumptions C128_memory_first_refuted.

(** the four set-ups for a request of which 200 bytes were announced, with a limit of 100 or 1000 bytes *)
Example C128_case_setups :
  setup 200 1000 [KConv] /\ setup 200 1000 [KTemp] /\ setup 200 1000 [KMem] /\ setup 200 1000 [KTemp; KMem] /\
  setup 200 100 [KMem; KTemp] /\ ~ setup 200 1000 [KMem; KTemp] /\ ~ setup 200 100 [KMem].
Proof.
  assert (H1 : forall len m k, takes len m k -> setup len m [k]).
  { intros len m k H. split; [now constructor|]. intros [|? [|? ?]] ? ? E; try discriminate. now injection E. }
  split; [apply H1; exact I|]. split; [apply H1; exact I|]. split; [apply H1; cbn; lia|]. split; [|split; [|split]].
  - split; [constructor; exact I|]. intros [|? [|? [|? ?]]] ? ? E; try discriminate; injection E as <- <-; easy.
  - split; [apply Exists_cons_tl; now constructor|]. intros [|? [|? [|? ?]]] ? ? E; try discriminate; injection E as <- <-; cbn; try lia; easy.
  - intros [_ H]. specialize (H [] KMem [KTemp] eq_refl). cbn in H. discriminate H. lia.
  - intros [H _]. inversion H as [? ? H2|? ? H2]; subst; [cbn in H2; lia|inversion H2].
Qed.
Definition ex_setup (m : Z) (ks : list hkind) (ps : list part) :=
  match fst (parse_src ex_reg no_cp ok_temp (with_fmem ex_ms (Some m)) !"--X" 900 4096 200%Z (map new_handler ks) [SData (render_form !"--X" ps)]) with
  | Ok (post, files) => Ok (map fst post, map (fun f => (uf_content f, match uf_kind f with InMemory _ => true | Temporary _ => false end)) (getl !"f" files))
  | Err e => Err e
  end.
Definition ex_none : part := mkPart !"f" (Some !"x") None false [] [].
Example C128_case :
  let got b := Ok ([!"a b"], [([0%N; 255%N; 13%N; 10%N], b); (!"abc", b)]) in
  ex_setup 1000 [KConv] ex_parts = got true /\ ex_setup 1000 [KTemp] ex_parts = got false /\ ex_setup 100 [KMem; KTemp] ex_parts = got false /\
  ex_setup 1000 [KMem; KTemp] ex_parts = got true /\
  ex_setup 100 [KMem] ex_parts = Ok ([!"a b"], []) /\
  ex_setup 1000 [KConv] [ex_none] = Ok ([], []) /\ ex_setup 1000 [KMem; KTemp] [ex_none] = Err AttributeError.
Proof. vm_compute. repeat split; reflexivity. Qed.
