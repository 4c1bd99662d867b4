(** * Proofs: saving a cube and reading it back. *)
From Verif Require Import Base Logic ModelFloat ModelCore ModelPixel ModelFile SpecBase SpecCore SpecNum SpecFile SpecHdr ProofCore ProofLayout ProofHM ProofCopy ProofCore2 ProofImage2 ProofImage3 ProofImage4 ProofPixel ProofColor ProofWord ProofArr ProofFlip ProofBmp ProofHdr ProofHdr2 ProofWave ProofSave.
From Coq Require Import Floats.SpecFloat String Ascii ZifyBool ZifyNat.
Ltac Zify.zify_post_hook ::= Z.div_mod_to_equations.
Open Scope Z_scope.

(** ** Building the cube from the bytes of the file *)

Lemma create_reloaded e s p m l es q0 sz0 d0 x q dx n wave a b c r :
  cube s p m l es -> hm_data m = Some q0 -> isb s q0 sz0 d0 -> hm_samples m * hm_lines m * hm_bands m * es <= sz0 ->
  env_ok e -> heap_ok x -> isb x q n dx -> hm_samples m * hm_lines m * hm_bands m * es <= n ->
  (forall i, 0 <= i < hm_samples m * hm_lines m * hm_bands m * es -> dx i mod 256 = d0 i mod 256) ->
  wave = None \/ readable x wave (hm_bands m * 4) -> tag_of l = [a; b; c] ->
  exists dd dw, create_hyper_mat_with_data (hm_samples m) (hm_lines m) (hm_bands m) (hm_type m) (a :: b :: c :: r) (Some q) wave e x
    = Ret (Some (List.length (objs x))) (newhm e x (hm_samples m) (hm_lines m) (hm_bands m) (hm_type m) es (tag_of l) dd dw)
    /\ forall i, 0 <= i < hm_samples m * hm_lines m * hm_bands m * es -> dd i mod 256 = d0 i mod 256.
Proof.
  intros CU E0 I0 N0 He Hx Iq Nq HD Hw Ht. destruct CU as [Hh Htag Hpad Hty HS HL HB Hsz Hws Hd Hwv].
  destruct (create_hm_run e x (hm_samples m) (hm_lines m) (hm_bands m) (hm_type m) es a b c r (Some q) wave) as (dd & dw & E & A & _); auto.
  { right. exists q, n, dx. split; [reflexivity|]. split; [exact Iq|lia]. }
  exists dd, dw. rewrite Ht. split; [exact E|]. intros i Hi. rewrite A by auto. unfold init_byte. rewrite (byte_at_isb x q n dx i Iq) by lia. apply HD. auto.
Qed.

(** The new cube is as wanted. *)
Lemma reloaded_intro e s p m l es q0 sz0 d0 x dd dw s2 y :
  cube s p m l es -> hm_data m = Some q0 -> isb s q0 sz0 d0 -> hm_samples m * hm_lines m * hm_bands m * es <= sz0 ->
  env_ok e -> (List.length (objs s2) <= List.length (objs x))%nat -> files y = files s2 -> old_unchanged s2 y -> heap_ok y ->
  (forall i, 0 <= i < hm_samples m * hm_lines m * hm_bands m * es -> dd i mod 256 = d0 i mod 256) ->
  hm_at y (Some (List.length (objs x))) = Some (newhdr e x (hm_samples m) (hm_lines m) (hm_bands m) (hm_type m) (tag_of l)) ->
  isb y (List.length (objs x) + 1) (hm_samples m * hm_lines m * hm_bands m * es) dd ->
  isb y (List.length (objs x) + 2) (hm_bands m * 4) dw ->
  reloaded s m l es s2 y (Some (List.length (objs x))).
Proof.
  intros CU E0 I0 N0 He Hlen FF OU Hy HD H1 H2 H3. pose proof CU as [Hh Htag Hpad Hty HS HL HB Hsz Hws Hd Hwv].
  set (S := hm_samples m) in *. set (L := hm_lines m) in *. set (B := hm_bands m) in *. set (ty := hm_type m) in *.
  pose proof (newhm_pad e x S L B ty (tag_of l) He) as H6.
  set (k := List.length (objs x)) in *.
  exists (newhdr e x S L B ty (tag_of l)). split; [|split; [|split; [|split; [|split; [|split; [|split; [|split; [|split; [|split]]]]]]]]].
  - constructor; auto; cbn [newhdr hm_samples hm_lines hm_bands hm_type hm_data hm_wave hm_il].
    + exists (k + 1)%nat. do 2 eexists. split; [reflexivity|]. split; [exact H2|lia].
    + right. exists (k + 2)%nat. do 2 eexists. split; [reflexivity|]. split; [exact H3|lia].
  - reflexivity.
  - reflexivity.
  - reflexivity.
  - reflexivity.
  - intros i j kk t (Hi & Hj & Hk) Ht. fold S in Hj. fold L in Hi. fold B in Hk. unfold sample_byte. cbn [newhdr hm_samples hm_lines hm_bands hm_data]. fold k. fold S L B.
    rewrite E0.
    assert (R := offset_range l S L B i j kk Hi Hj Hk).
    assert (0 <= offset l S L B i j kk * es + t < S * L * B * es) by nia.
    rewrite (byte_at_isb y _ _ _ _ H2), (byte_at_isb s _ _ _ _ I0) by lia. f_equal. apply HD. lia.
  - exists k. split; [reflexivity|]. lia.
  - exists (k + 1)%nat. split; [reflexivity|]. lia.
  - exact OU.
  - exact FF.
  - exact Hy.
Qed.
Lemma newhm_reloaded e s p m l es q0 sz0 d0 x dd dw s2 :
  cube s p m l es -> hm_data m = Some q0 -> isb s q0 sz0 d0 -> hm_samples m * hm_lines m * hm_bands m * es <= sz0 ->
  env_ok e -> heap_ok x -> old_unchanged s2 x -> files x = files s2 ->
  (forall i, 0 <= i < hm_samples m * hm_lines m * hm_bands m * es -> dd i mod 256 = d0 i mod 256) ->
  reloaded s m l es s2 (newhm e x (hm_samples m) (hm_lines m) (hm_bands m) (hm_type m) es (tag_of l) dd dw) (Some (List.length (objs x))).
Proof.
  intros CU E0 I0 N0 He Hx OU FF HD.
  apply (reloaded_intro e s p m l es q0 sz0 d0 x dd dw s2); auto.
  - exact (old_unchanged_length _ _ OU).
  - exact (old_unchanged_trans _ _ _ OU (newhm_old_unchanged e x _ _ _ _ es (tag_of l) dd dw)).
  - apply newhm_heap_ok. auto.
  - apply newhm_hdr.
  - apply newhm_data.
  - apply newhm_wave.
Qed.

(** Freeing a block of its own leaves everything else alone. *)
Lemma kill_isb y k0 q n d : isb y q n d -> (forall o, nth_error (objs y) q = Some o -> o_root o <> k0) ->
  isb (mkSt (map (kill_root k0) (objs y)) (files y)) q n d.
Proof.
  intros H Hr. apply isb_obj in H as (a & r & H). eapply obj_isb. cbn [objs]. rewrite nth_error_map, H. cbn [option_map].
  rewrite kill_other; [reflexivity|]. apply (Hr _ H).
Qed.
Lemma kill_old s2 y k0 : heap_ok s2 -> old_unchanged s2 y -> (List.length (objs s2) <= k0)%nat ->
  old_unchanged s2 (mkSt (map (kill_root k0) (objs y)) (files y)).
Proof.
  intros Hs OU Hk i Hi. cbn [objs]. rewrite nth_error_map, (OU i Hi).
  destruct (nth_error (objs s2) i) as [o|] eqn:E; [|reflexivity]. cbn. f_equal. apply kill_other. pose proof (Hs _ _ E). lia.
Qed.
Lemma kill_heap y k0 : heap_ok y -> heap_ok (mkSt (map (kill_root k0) (objs y)) (files y)).
Proof.
  intros Hy i o H. cbn [objs] in *. rewrite map_length. rewrite nth_error_map in H.
  destruct (nth_error (objs y) i) as [o'|] eqn:E; [|discriminate]. cbn in H. injection H as <-. pose proof (Hy _ _ E).
  unfold kill_root. destruct (Nat.eqb (o_root o') k0); [|auto]. destruct o'; auto.
Qed.

(** Bytes written and read. *)
Lemma file_bytes d n i : 0 <= i < n -> nth (Z.to_nat i) (bytes_of d n) 0 = d i mod 256.
Proof. intros H. apply nth_error_nth, bytes_of_nth. exact H. Qed.

Section Alloc.
  Variables (e : env) (s : st) (n : Z).
  Hypothesis Hs : heap_ok s.
  Hypothesis Hn : 0 <= n <= 2147483647.
  Definition with_block (d : Z -> Z) : st :=
    mkSt (objs s ++ [mkObj (e_addr e (List.length (objs s))) n (List.length (objs s)) true (CBytes d)]) (files s).
  Lemma wb_malloc : malloc n e s = Ret (Some (List.length (objs s))) (with_block (e_junk e (List.length (objs s)))).
  Proof. now rewrite malloc_new. Qed.
  Lemma wb_isb d : isb (with_block d) (List.length (objs s)) n d.
  Proof. eapply obj_isb. unfold with_block; cbn [objs]. rewrite (nth_error_app_new0 (objs s)). reflexivity. Qed.
  Lemma wb_old d : old_unchanged s (with_block d).
  Proof. intros i Hi. unfold with_block; cbn [objs]. now rewrite nth_error_app1. Qed.
  Lemma wb_heap d : heap_ok (with_block d).
  Proof. unfold with_block. eapply heap_ok_app; eauto. repeat constructor; cbn; lia. Qed.
  Lemma wb_put d d' : putd (with_block d) (List.length (objs s)) d' = with_block d'.
  Proof. unfold with_block, putd; cbn [objs files]. rewrite (lupd_app_new0 (objs s)). reflexivity. Qed.
  Lemma wb_len d : List.length (objs (with_block d)) = Datatypes.S (List.length (objs s)).
  Proof. unfold with_block; cbn [objs]. rewrite app_length. cbn. lia. Qed.
  Lemma wb_isb_old d q m f : isb s q m f -> isb (with_block d) q m f.
  Proof. apply isb_app_old. Qed.
End Alloc.

Lemma fread_block e s n b : 0 <= n -> n = Z.of_nat (List.length b) -> forall d,
  exists d', fread (Some (List.length (objs s))) n b e (with_block e s n d) = Ret [] (with_block e s n d')
    /\ forall i, 0 <= i < n -> d' i = nth (Z.to_nat i) b 0.
Proof.
  intros Hn Hb d. destruct (fread_ok e (with_block e s n d) (List.length (objs s)) n d n b (wb_isb e s n d) ltac:(lia) Hb) as (d' & E & H).
  exists d'. rewrite wb_put in E. auto.
Qed.

Lemma size_c S L B es : 0 < S -> 0 < L -> 0 < B -> 1 <= es -> S * L * B * es <= 2147483647 ->
  (S * L * B)%C = Some (S * L * B) /\ 0 < S * L * B /\ 0 < S * L * B * es.
Proof.
  intros HS HL HB He Hs. assert (0 < S * L) by nia. assert (0 < S * L * B) by nia. assert (S * L <= S * L * B) by nia.
  assert (S * L * B <= S * L * B * es) by nia. split; [|split; [lia|nia]]. unfold ci. rewrite (cmul_ok S L) by lia. apply cmul_ok. lia.
Qed.

(** C11. *)
Lemma size_round_trip can e s p m l es path : cube s p m l es -> heap_ok s -> can path = true -> can (path ++ chars ".hdr") = true ->
  exists s', hmsave can (Some path) p e s = Ret tt s' /\ objs s' = objs s /\ other_files [path; path ++ chars ".hdr"] s s'
    /\ forall e2 s2 r, env_ok e2 -> heap_ok s2 -> file_of s2 path = file_of s' path ->
         exists p' s3, hmread_with_size (Some path) (hm_samples m) (hm_lines m) (hm_bands m) (hm_type m) (tag_of l ++ r) e2 s2 = Ret p' s3
           /\ reloaded s m l es s2 s3 p'.
Proof.
  intros CU Hs Hc1 Hc2. destruct (hmsave_run can e s p m l es path CU Hc1 Hc2) as (s' & q & sz & d & E & O & Eq & Iq & Nq & F & OF & _).
  exists s'. split; [exact E|]. split; [exact O|]. split; [exact OF|]. intros e2 s2 r He2 Hs2 Ff. rewrite F in Ff.
  pose proof CU as [Hh Htag Hpad Hty HS HL HB Hsz Hws Hd Hwv].
  pose proof (type_size_range _ _ Hty) as Hes. pose proof (type_size_elemsize _ _ Hty) as Hee.
  set (S := hm_samples m) in *. set (L := hm_lines m) in *. set (B := hm_bands m) in *.
  destruct (size_c S L B es HS HL HB ltac:(lia) Hsz) as (EC & P1 & P2).
  set (D := S * L * B * es) in *.
  assert (Htl : exists a b c, tag_of l = [a; b; c]) by (destruct l; do 3 eexists; reflexivity). destruct Htl as (ta & tb & tc & Et).
  assert (HD : 0 <= D <= 2147483647) by lia.
  destruct (fread_block e2 s2 D (bytes_of d D) ltac:(lia) ltac:(rewrite bytes_of_len; lia) (e_junk e2 (List.length (objs s2)))) as (d1 & R1 & V1).
  set (x1 := with_block e2 s2 D d1) in *.
  assert (Hx1 : heap_ok x1) by (apply wb_heap; auto).
  set (x2 := with_block e2 x1 (B * 4) (e_junk e2 (List.length (objs x1)))).
  assert (Hx2 : heap_ok x2) by (apply wb_heap; auto).
  assert (I2 : isb x2 (List.length (objs s2)) D d1) by (apply wb_isb_old, wb_isb).
  destruct (create_reloaded e2 s p m l es q sz d x2 (List.length (objs s2)) d1 D (Some (List.length (objs x1))) ta tb tc r CU Eq Iq Nq He2 Hx2 I2) as (dd & dw & EK & VK).
  { fold S L B. fold D. lia. }
  { fold S L B. fold D. intros i Hi. rewrite V1, file_bytes by auto. lia. }
  { right. exists (List.length (objs x1)). do 2 eexists. split; [reflexivity|]. split; [apply wb_isb|fold B; lia]. }
  { exact Et. }
  exists (Some (List.length (objs x2))), (newhm e2 x2 S L B (hm_type m) es (tag_of l) dd dw). split.
  - unfold hmread_with_size. rewrite bind_assert by lia. unfold fopen_r at 1. unfold bind at 1. rewrite Ff. rewrite Hee.
    runs (ev_ok _ _ e2 s2 EC). fold D. runs (wb_malloc e2 s2 D HD). runs R1.
    runs (wb_malloc e2 x1 (B * 4) ltac:(lia)). fold x2. rewrite Et. cbn [app]. rewrite <- Et in *. exact EK.
  - apply newhm_reloaded with (p := p) (q0 := q) (sz0 := sz) (d0 := d); auto.
    exact (old_unchanged_trans _ _ _ (wb_old e2 s2 D d1) (wb_old e2 x1 _ _)).
Qed.
