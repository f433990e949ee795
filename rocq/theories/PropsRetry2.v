(** * C121: a refused multipart form is accepted by the second call as well *)
From Verif Require Import Py Spec PyFacts PyDict StreamModel CodecModel QueryModel HeadModel HeaderSpec UploadModel MultipartModel FormSpec FormFacts
  PropsPart PropsMultipart RequestModel RequestSpec PropsRequest PropsBody PropsEnd.

Definition ex_few : sett := mkS (Some 16%Z) (Some 100%Z) (Some 1000%Z) (Some 1%Z) !"utf-8" [KConv].
Definition ex_two : list part := [mkPart !"a" None None false !"1" !"1"; mkPart !"b" None None false !"2" !"2"].
Definition ex_two_src : src := req (ex_line :: map field exm_fields') (render_form !"--X" ex_two).
Theorem C121_multipart_refuted :
  exists s r w1 w2 q, request_init ex_reg ex_few s = Ok r /\ s = ex_two_src /\
    parse ex_reg no_cp ok_temp (ex_few, r) = (Err TooManyFieldsSent, w1) /\ parse ex_reg no_cp ok_temp w1 = (Ok tt, w2) /\
    r_post (snd w2) = Some (PQuery q) /\ q_d q = [] /\ r_files (snd w2) = Some [].
Proof.
  exists ex_two_src. eexists _, _, _, _. split; [vm_compute; reflexivity|]. split; [reflexivity|]. split; [vm_compute; reflexivity|]. split; [vm_compute; reflexivity|].
  split; [reflexivity|]. split; reflexivity.
Qed.
Print Assumptions C121_multipart_refuted.
