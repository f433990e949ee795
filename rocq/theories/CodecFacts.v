(** * The concrete codecs satisfy [codec_ok] *)
From Coq Require Import ZifyN ZifyNat.
From Verif Require Import Py PyFacts CodecModel.
Ltac Zify.zify_post_hook ::= Z.div_mod_to_equations.

Lemma ascii_bytes s : ascii_only s = true -> bytes_only s = true.
Proof.
  unfold ascii_only, bytes_only. rewrite !forallb_forall. intros H c Hc. apply H in Hc.
  unfold is_ascii, is_byte in *. apply N.ltb_lt in Hc. apply N.ltb_lt. lia.
Qed.
Lemma map_id_on {A} (f : A -> A) l : (forall x, In x l -> f x = x) -> map f l = l.
Proof. intros H. rewrite <- (map_id l) at 2. now apply map_ext_in. Qed.

Lemma latin1_ok : codec_ok latin1.
Proof.
  split; cbn.
  - intros s u [= ->]. easy.
  - easy.
  - intros s H. now rewrite (ascii_bytes s H).
  - intros u s. destruct (bytes_only u) eqn:E; [|easy]. intros [= <-]. apply map_id_on. intros c Hc.
    unfold bytes_only in E. rewrite forallb_forall in E. now rewrite E.
  - intros u s. destruct (bytes_only u) eqn:E; [|easy]. now intros [= <-].
  - intros u s. destruct (bytes_only u) eqn:E; [|easy]. now intros [= <-].
Qed.

Lemma ascii_ok : codec_ok ascii_codec.
Proof.
  assert (Hm : forall r u, ascii_only u = true -> map (fun c => if is_ascii c then c else r) u = u).
  { intros r u E. apply map_id_on. intros c Hc. unfold ascii_only in E. rewrite forallb_forall in E. now rewrite E. }
  split; cbn.
  - intros s u. destruct (ascii_only s) eqn:E; [|easy]. intros [= <-]. now apply Hm.
  - intros s H. now rewrite H.
  - intros s H. now rewrite H.
  - intros u s. destruct (ascii_only u) eqn:E; [|easy]. intros [= <-]. now apply Hm.
  - intros u s. destruct (ascii_only u) eqn:E; [|easy]. intros [= <-]. now rewrite E.
  - intros u s. destruct (ascii_only u) eqn:E; [|easy]. intros [= <-]. now apply ascii_bytes.
Qed.

Lemma Some_inj {A} (a b : A) : Some a = Some b -> a = b.
Proof. congruence. Qed.

Lemma utf8_dec_cons a t : utf8_dec (a :: t) =
      if N.ltb a 128 then option_map (cons a) (utf8_dec t)
      else if N.ltb a 194 then None
      else if N.ltb a 224 then
        match t with
        | b :: t => if cont b
                    then option_map (cons ((a - 192) * 64 + (b - 128))%N) (utf8_dec t)
                    else None
        | _ => None
        end
      else if N.ltb a 240 then
        match t with
        | b :: c :: t =>
            let x := ((a - 224) * 4096 + (b - 128) * 64 + (c - 128))%N in
            if cont b && cont c && N.leb 2048 x then option_map (cons x) (utf8_dec t) else None
        | _ => None
        end
      else if N.ltb a 245 then
        match t with
        | b :: c :: d :: t =>
            let x := ((a - 240) * 262144 + (b - 128) * 4096 + (c - 128) * 64 + (d - 128))%N in
            if cont b && cont c && cont d && N.leb 65536 x && N.ltb x 1114112
            then option_map (cons x) (utf8_dec t) else None
        | _ => None
        end
      else None.
Proof. reflexivity. Qed.

Lemma utf8_char_roundtrip c a t : utf8_char c = Some a ->
  utf8_dec (a ++ t) = option_map (cons c) (utf8_dec t).
Proof.
  unfold utf8_char.
  destruct (N.ltb_spec c 128). { intros <-%Some_inj. cbn. apply N.ltb_lt in H. now rewrite H. }
  destruct (N.ltb_spec c 2048).
  { intros <-%Some_inj. rewrite <- ?app_comm_cons, app_nil_l, utf8_dec_cons.
    destruct (N.ltb_spec (192 + c / 64) 128); [lia|].
    destruct (N.ltb_spec (192 + c / 64) 194); [lia|].
    destruct (N.ltb_spec (192 + c / 64) 224); [|lia]. cbv beta iota zeta.
    unfold cont. destruct (N.leb_spec 128 (128 + c mod 64)); [|lia].
    destruct (N.ltb_spec (128 + c mod 64) 192); [|lia]. cbn [andb].
    replace ((192 + c / 64 - 192) * 64 + (128 + c mod 64 - 128))%N with c by lia. reflexivity. }
  destruct (N.ltb_spec c 65536).
  { intros <-%Some_inj. rewrite <- ?app_comm_cons, app_nil_l, utf8_dec_cons.
    destruct (N.ltb_spec (224 + c / 4096) 128); [lia|].
    destruct (N.ltb_spec (224 + c / 4096) 194); [lia|].
    destruct (N.ltb_spec (224 + c / 4096) 224); [lia|].
    destruct (N.ltb_spec (224 + c / 4096) 240); [|lia]. cbv beta iota zeta.
    unfold cont. destruct (N.leb_spec 128 (128 + (c / 64) mod 64)); [|lia].
    destruct (N.ltb_spec (128 + (c / 64) mod 64) 192); [|lia].
    destruct (N.leb_spec 128 (128 + c mod 64)); [|lia].
    destruct (N.ltb_spec (128 + c mod 64) 192); [|lia]. cbn [andb].
    replace ((224 + c / 4096 - 224) * 4096 + (128 + (c / 64) mod 64 - 128) * 64 + (128 + c mod 64 - 128))%N with c by lia.
    destruct (N.leb_spec 2048 c); [easy|lia]. }
  destruct (N.ltb_spec c 1114112); [|easy].
  intros <-%Some_inj. rewrite <- ?app_comm_cons, app_nil_l, utf8_dec_cons.
  destruct (N.ltb_spec (240 + c / 262144) 128); [lia|].
  destruct (N.ltb_spec (240 + c / 262144) 194); [lia|].
  destruct (N.ltb_spec (240 + c / 262144) 224); [lia|].
  destruct (N.ltb_spec (240 + c / 262144) 240); [lia|].
  destruct (N.ltb_spec (240 + c / 262144) 245); [|lia]. cbv beta iota zeta.
  unfold cont. destruct (N.leb_spec 128 (128 + (c / 4096) mod 64)); [|lia].
  destruct (N.ltb_spec (128 + (c / 4096) mod 64) 192); [|lia].
  destruct (N.leb_spec 128 (128 + (c / 64) mod 64)); [|lia].
  destruct (N.ltb_spec (128 + (c / 64) mod 64) 192); [|lia].
  destruct (N.leb_spec 128 (128 + c mod 64)); [|lia].
  destruct (N.ltb_spec (128 + c mod 64) 192); [|lia]. cbn [andb].
  replace ((240 + c / 262144 - 240) * 262144 + (128 + (c / 4096) mod 64 - 128) * 4096
           + (128 + (c / 64) mod 64 - 128) * 64 + (128 + c mod 64 - 128))%N with c by lia.
  destruct (N.leb_spec 65536 c); [|lia]. cbn [andb]. destruct (N.ltb_spec c 1114112); [easy|lia].
Qed.

Lemma utf8_roundtrip u : forall s, utf8_enc u = Some s -> utf8_dec s = Some u.
Proof.
  induction u as [|c u IH]; intros s; cbn; [now intros [= <-]|].
  destruct (utf8_char c) as [a|] eqn:E; [|easy]. destruct (utf8_enc u) as [b|]; [|easy]. intros [= <-].
  rewrite (utf8_char_roundtrip c a b E). now rewrite (IH b).
Qed.

Lemma utf8_char_bytes c a : utf8_char c = Some a -> bytes_only a = true.
Proof.
  unfold utf8_char, bytes_only, is_byte.
  destruct (N.ltb_spec c 128). { intros <-%Some_inj. cbn. destruct (N.ltb_spec c 256); [easy|lia]. }
  destruct (N.ltb_spec c 2048). { intros <-%Some_inj. cbn [forallb]. rewrite !andb_true_r, !andb_true_iff, !N.ltb_lt. lia. }
  destruct (N.ltb_spec c 65536). { intros <-%Some_inj. cbn [forallb]. rewrite !andb_true_r, !andb_true_iff, !N.ltb_lt. lia. }
  destruct (N.ltb_spec c 1114112); [|easy].
  intros <-%Some_inj. cbn [forallb]. rewrite !andb_true_r, !andb_true_iff, !N.ltb_lt. lia.
Qed.
Lemma utf8_enc_bytes u : forall s, utf8_enc u = Some s -> bytes_only s = true.
Proof.
  induction u as [|c u IH]; intros s; cbn; [now intros [= <-]|].
  destruct (utf8_char c) as [a|] eqn:E; [|easy]. destruct (utf8_enc u) as [b|]; [|easy]. intros [= <-].
  unfold bytes_only. rewrite forallb_app. apply andb_true_iff. split; [exact (utf8_char_bytes c a E)|exact (IH b eq_refl)].
Qed.

Lemma utf8_ok rep : codec_ok (utf8 rep).
Proof.
  split; cbn.
  - intros s u H. now rewrite H.
  - induction s as [|c s IH]; [easy|]. intros H. apply andb_prop in H. destruct H as [H1 H2].
    unfold is_ascii in H1. rewrite utf8_dec_cons, H1. rewrite IH by exact H2. reflexivity.
  - induction s as [|c s IH]; [easy|]. cbn. intros H. apply andb_prop in H. destruct H as [H1 H2].
    unfold utf8_char. unfold is_ascii in H1. rewrite H1. now rewrite IH.
  - intros u s H. now rewrite H.
  - apply utf8_roundtrip.
  - apply utf8_enc_bytes.
Qed.

Lemma key_of_ascii s : ascii_only s = true -> key_of (PB s) = key_of (PU s).
Proof. intros H. cbn. now rewrite H. Qed.
