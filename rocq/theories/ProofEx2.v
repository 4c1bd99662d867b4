(** * Witnesses for the image functions. *)
From Verif Require Import Base Logic ModelCore ModelImage SpecBase SpecCore SpecImage SpecImage2 Fixtures Fixtures2 ProofCore ProofHM ProofEx ProofImage4.
From Coq Require Import String Lia ZifyBool.
Open Scope Z_scope.

(** a 2x1x2 16-bit BSQ cube (data 0..7) and a 1x2 16-bit matrix (data 50..53) *)
Definition st_ins : st := mkSt (hc_objs 0 2 1 2 2 2 BSQ (fun i => i) (fun _ => 0) ++ im_objs 3 1 2 2 1 2 (fun i => 50 + i)) [].

Lemma st_ins_ok : cube st_ins (Some 0%nat) (hc_hdr 0 2 1 2 2 BSQ) BSQ 2 /\ image st_ins (Some 3%nat) (im_hdr 3 1 2 2 1 2) 2.
Proof. split; [ex_cube_tac|ex_image_tac]. Qed.

Lemma insert_refuted : exists e s p m es d ms band s',
  env_ok e /\ cube s p m BSQ es /\ image s d ms es
  /\ sm_rows ms = hm_lines m /\ sm_cols ms = hm_samples m /\ sm_type ms = hm_type m
  /\ sm_data ms <> hm_data m /\ 1 <= band <= hm_bands m
  /\ simple_mat_2_hyper_mat p d band e s = Ret tt s'
  /\ ~ band_inserted s m es (sm_data ms) band s'.
Proof.
  eexists ex_env, st_ins, (Some 0%nat), (hc_hdr 0 2 1 2 2 BSQ), 2, (Some 3%nat), (im_hdr 3 1 2 2 1 2), 2, _.
  split; [apply ex_env_ok|]. split; [apply st_ins_ok|]. split; [apply st_ins_ok|].
  do 3 (split; [reflexivity|]). split; [discriminate|]. split; [cbn; lia|].
  split; [vm_compute; reflexivity|]. intros (A & _).
  specialize (A 0 1 1 ltac:(cbn; lia) ltac:(cbn; lia) ltac:(lia)). vm_compute in A. discriminate.
Qed.

(** a 2x3 and a 2x2 one-channel image, and a 2x2 destination *)
Definition st_add : st := mkSt (im_objs 0 2 3 1 1 1 (fun i => i) ++ im_objs 2 2 2 1 1 1 (fun i => 10 * i)
                                ++ im_objs 4 2 2 1 1 1 (fun _ => 0)) [].

Lemma add_refuted : exists e s p1 m1 p2 m2 d md s',
  env_ok e /\ image s p1 m1 1 /\ image s p2 m2 1 /\ image s d md 1
  /\ sm_chan m1 = sm_chan md /\ sm_chan m2 = sm_chan md
  /\ sm_rows md = Z.min (sm_rows m1) (sm_rows m2) /\ sm_cols md = Z.min (sm_cols m1) (sm_cols m2)
  /\ simple_mat_addition_uchar p1 p2 d e s = Ret tt s'
  /\ ~ summed s m1 m2 md s'.
Proof.
  eexists ex_env, st_add, (Some 0%nat), (im_hdr 0 2 3 1 1 1), (Some 2%nat), (im_hdr 2 2 2 1 1 1), (Some 4%nat), (im_hdr 4 2 2 1 1 1), _.
  split; [apply ex_env_ok|]. split; [ex_image_tac|]. split; [ex_image_tac|]. split; [ex_image_tac|].
  do 4 (split; [reflexivity|]). split; [vm_compute; reflexivity|]. intros A.
  specialize (A 1 0 0 ltac:(cbn; lia) ltac:(cbn; lia) ltac:(cbn; lia)).
  destruct A as (a & b & A1 & A2 & A3). vm_compute in A1, A2, A3. injection A1 as <-. injection A2 as <-. discriminate.
Qed.

(** two 2x3 images, both to be added into the first *)
Definition st_add2 : st := mkSt (im_objs 0 2 3 1 1 1 (fun i => 100 + i) ++ im_objs 2 3 3 1 1 1 (fun i => 60 * i)) [].
Lemma st_add2_ok : image st_add2 (Some 0%nat) (im_hdr 0 2 3 1 1 1) 1 /\ image st_add2 (Some 2%nat) (im_hdr 2 3 3 1 1 1) 1.
Proof. split; ex_image_tac. Qed.

(** a 2x3 16-bit matrix, a 3x2 one, and another 2x3 one *)
Definition st_tr : st := mkSt (im_objs 0 2 3 2 1 2 (fun i => i) ++ im_objs 2 3 2 2 1 2 (fun _ => 0)
                               ++ im_objs 4 2 3 2 1 2 (fun _ => 0)) [].
Lemma st_tr_ok : image st_tr (Some 0%nat) (im_hdr 0 2 3 2 1 2) 2 /\ image st_tr (Some 2%nat) (im_hdr 2 3 2 2 1 2) 2
  /\ image st_tr (Some 4%nat) (im_hdr 4 2 3 2 1 2) 2.
Proof. split; [|split]; ex_image_tac. Qed.

(** a 2x2x2 cube and a 2x1x1 part, bytes *)
Definition st_spl : st := mkSt (hc_objs 0 2 2 2 1 1 BIP (fun i => i) (fun _ => 0) ++ hc_objs 3 2 1 1 1 1 BIP (fun i => 90 + i) (fun _ => 0)) [].
Lemma st_spl_ok : cube st_spl (Some 0%nat) (hc_hdr 0 2 2 2 1 BIP) BIP 1 /\ cube st_spl (Some 3%nat) (hc_hdr 3 2 1 1 1 BIP) BIP 1.
Proof. split; ex_cube_tac. Qed.

Lemma splice_refuted : exists e s p m l r mp l' es start,
  env_ok e /\ heap_ok s /\ cube s p m l es /\ cube s r mp l' es /\ hm_type m = hm_type mp
  /\ hm_data mp <> hm_data m /\ 0 <= start < hm_samples m * hm_lines m * hm_bands m
  /\ hyper_mat_splicing p r start e s = UB.
Proof.
  exists ex_env, st_spl, (Some 0%nat), (hc_hdr 0 2 2 2 1 BIP), BIP, (Some 3%nat), (hc_hdr 3 2 1 1 1 BIP), BIP, 1, 7.
  split; [apply ex_env_ok|]. split; [ex_heap_tac|]. split; [apply st_spl_ok|]. split; [apply st_spl_ok|].
  split; [reflexivity|]. split; [discriminate|]. split; [cbn; lia|]. vm_compute. reflexivity.
Qed.

Lemma leak_refuted : exists e s w h p s1 m s2 o, env_ok e /\ heap_ok s
  /\ create_2D_struct w h e s = Ret p s1 /\ s2_at s1 p = Some m
  /\ delete_S_2D p e s1 = Ret tt s2
  /\ fresh_in s (s2_data m) /\ block s2 (s2_data m) = Some o /\ o_live o = true.
Proof.
  destruct (delete_2D_leaks ex_env ex_image 3 3) as (p & s1 & m & s2 & o & H1 & H2 & H3 & H4 & H5 & H6 & H7);
    try lia; [apply ex_image_heap|].
  exists ex_env, ex_image, 3, 3, p, s1, m, s2, o.
  split; [apply ex_env_ok|]. split; [apply ex_image_heap|]. auto 10.
Qed.

Lemma insert_rejected e s p m l es d ms band : cube s p m l es -> sm_at s d = Some ms ->
  sm_rows ms <> hm_lines m \/ sm_cols ms <> hm_samples m \/ band < 1 \/ hm_bands m < band \/ l <> BSQ ->
  simple_mat_2_hyper_mat p d band e s = Exit.
Proof.
  intros [Hh Ht Hp Hty HS HL HB Hsz Hws Hd Hw] Hmd H.
  unfold simple_mat_2_hyper_mat. runs (hget_ok _ _ e _ Hh). runs (sget_ok _ _ e _ Hmd).
  destruct ((sm_rows ms =? hm_lines m) && (sm_cols ms =? hm_samples m)) eqn:E1; [|now apply bind_assert_false].
  rewrite bind_assert by reflexivity.
  destruct ((band <=? hm_bands m) && (band >? 0)) eqn:E2; [|now apply bind_assert_false].
  rewrite bind_assert by reflexivity. runs (il_cmp_bsq _ _ e s Ht Hp).
  destruct l; [lia || (exfalso; intuition (try lia; congruence))|now apply bind_assert_false..].
Qed.
