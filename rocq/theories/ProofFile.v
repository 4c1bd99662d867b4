(** * Proofs: BMP round trips, raw image files. *)
From Verif Require Import Base Logic ModelFloat ModelCore ModelPixel ModelFile SpecBase SpecCore SpecImage SpecImage2 SpecPixel SpecFile ProofCore ProofLayout ProofHM ProofCopy ProofCore2 ProofImage2 ProofImage3 ProofImage4 ProofPixel ProofColor ProofBmp.
From Coq Require Import String ZifyBool ZifyNat.
Ltac Zify.zify_post_hook ::= Z.div_mod_to_equations.
Open Scope Z_scope.

(** ** smwrite_bmp *)

Lemma write_colour e s p m name can : heap_ok s -> image s p m 1 -> sm_chan m = 3 ->
  bmp_small (sm_rows m) (sm_cols m) -> can name = true ->
  exists s' f, smwrite_bmp can (Some name) p e s = Ret tt s'
    /\ file_of s' name = Some f /\ other_files [name] s s'
    /\ bmp_header f (sm_rows m) (sm_cols m) /\ (forall x, In x f -> 0 <= x < 256)
    /\ (forall r j c, 0 <= r < sm_rows m -> 0 <= j < sm_cols m -> 0 <= c < 3 ->
          file_byte f (54 + r * bmp_stride (sm_cols m) + 3 * j + c) = turned (pix s m) (sm_rows m) r j c)
    /\ image s' p m 1
    /\ (forall i j k, in_image m i j k -> pix s' m i j k = turned (pix s m) (sm_rows m) i j k)
    /\ unchanged_except [sm_data m] s s'
    /\ (forall x, sm_rows m * sm_cols m * 3 <= x -> byte_at s' (sm_data m) x = byte_at s (sm_data m) x)
    /\ heap_ok s'.
Proof.
  intros Hs IM H3 Hsm Hc. set (sa := with_file s name []).
  assert (IMa : image sa p m 1). { destruct IM. constructor; auto. }
  destruct (bmp_tail_run e sa p m name Hs IMa H3 Hsm (file_with s name [])) as
    (s' & f & X & F & OF & BH & BY & FB & IM' & PX & UN & BB & HO).
  exists s', f.
  assert (Hn : nonnull p = true) by (destruct p; [reflexivity|destruct IM as [E]; discriminate E]).
  assert (T1 : sm_type m = 1) by (apply type_one; apply IM).
  split. { rewrite smwrite_bmp_eq. rewrite bind_assert by auto. runs (sget_ok _ _ e _ (im_hdr _ _ _ _ IM)).
    rewrite bind_assert by lia. runs (fopen_w_ok can e s name Hc). fold sa. rewrite bind_assert by reflexivity.
    replace (sm_chan m =? 1) with false by lia. rewrite (bind_ret _ _ e sa p sa eq_refl).
    runs (sget_ok _ _ e _ (im_hdr _ _ _ _ IMa)). exact X. }
  split; [exact F|]. split. { intros z Hz. rewrite OF by auto. apply file_with_other. intros ->. apply Hz. now left. }
  split; [exact BH|]. split; [exact BY|]. split; [exact FB|]. split; [exact IM'|]. split; [exact PX|].
  split; [exact UN|]. split; [exact BB|exact HO].
Qed.

Lemma write_gray e s p m name can : env_ok e -> heap_ok s -> image s p m 1 -> sm_chan m = 1 ->
  bmp_small (sm_rows m) (sm_cols m) -> can name = true ->
  exists s' f, smwrite_bmp can (Some name) p e s = Ret tt s'
    /\ file_of s' name = Some f /\ other_files [name] s s'
    /\ bmp_header f (sm_rows m) (sm_cols m) /\ (forall x, In x f -> 0 <= x < 256)
    /\ (forall r j c, 0 <= r < sm_rows m -> 0 <= j < sm_cols m -> 0 <= c < 3 ->
          file_byte f (54 + r * bmp_stride (sm_cols m) + 3 * j + c) = pix s m (sm_rows m - 1 - r) j 0)
    /\ old_unchanged s s' /\ heap_ok s'.
Proof.
  intros He Hs IM H1 Hsm Hc. set (sa := with_file s name []).
  assert (IMa : image sa p m 1). { destruct IM. constructor; auto. }
  assert (Hn : nonnull p = true) by (destruct p; [reflexivity|destruct IM as [E]; discriminate E]).
  assert (T1 : sm_type m = 1) by (apply type_one; apply IM).
  assert (Hsz : sm_rows m * sm_cols m * 3 + 96 <= 2147483647) by (destruct Hsm as (_ & _ & ?); lia).
  destruct (gray2rgb_run e sa p m He Hs IMa H1 Hsz) as (p1 & s1 & X1 & m1 & IM1 & E1 & E2 & E3 & E4 & E5 & F1 & F2 & OU & FF & HO1).
  assert (Ff1 : file_of s1 name = Some []). { unfold file_of. rewrite FF. apply (file_with s name []). }
  destruct (bmp_tail_run e s1 p1 m1 name HO1 IM1 E4) as
    (s' & f & X & F & OF & BH & BY & FB & IM' & PX & UN & BB & HO); [rewrite E1, E2; exact Hsm|exact Ff1|].
  rewrite E1, E2 in *.
  exists s', f. split. { rewrite smwrite_bmp_eq. rewrite bind_assert by auto. runs (sget_ok _ _ e _ (im_hdr _ _ _ _ IM)).
    rewrite bind_assert by lia. runs (fopen_w_ok can e s name Hc). fold sa. rewrite bind_assert by reflexivity.
    replace (sm_chan m =? 1) with true by lia. runs X1.
    runs (sget_ok _ _ e _ (im_hdr _ _ _ _ IM1)). exact X. }
  split; [exact F|]. split. { intros z Hz. rewrite OF by auto. unfold file_of. rewrite FF. apply file_with_other. intros ->. apply Hz. now left. }
  split; [exact BH|]. split; [exact BY|]. split.
  { intros r j c Hr Hj Hc'. rewrite FB by auto. unfold turned.
    destruct (Z.eqb_spec (2 * r + 1) (sm_rows m)).
    - rewrite E5 by (unfold in_image; lia). replace (sm_rows m - 1 - r) with r by lia. reflexivity.
    - rewrite E5 by (unfold in_image; lia). reflexivity. }
  split; [|exact HO]. intros i Hi.
  assert (Hlen := old_unchanged_length _ _ OU). change (objs sa) with (objs s) in Hlen.
  rewrite UN; [exact (OU i Hi)|lia|]. intros [E|[]]. destruct F2 as (z & Ez & Lz). rewrite Ez in E. injection E as ->.
  change (objs sa) with (objs s) in Lz. lia.
Qed.

(** C17. *)
Lemma write_shows e s p m name can : heap_ok s -> image s p m 1 -> sm_chan m = 3 ->
  bmp_small (sm_rows m) (sm_cols m) -> can name = true ->
  exists s' f, smwrite_bmp can (Some name) p e s = Ret tt s' /\ file_of s' name = Some f
    /\ other_files [name] s s'
    /\ bmp_header f (sm_rows m) (sm_cols m)
    /\ forall i, 0 <= i < sm_rows m -> 2 * i + 1 <> sm_rows m -> bmp_shows f (sm_rows m) (sm_cols m) (pix s m) i.
Proof.
  intros Hs IM H3 Hsm Hc. destruct (write_colour e s p m name can Hs IM H3 Hsm Hc) as (s' & f & X & F & OF & BH & _ & FB & _).
  exists s', f. do 4 (split; [assumption|]). intros i Hi Hne j c Hj Hcc. unfold bmp_pixel. rewrite FB by lia.
  unfold turned. replace (2 * (sm_rows m - 1 - i) + 1 =? sm_rows m) with false by lia.
  f_equal. lia.
Qed.

Lemma write_shows_gray e s p m name can : env_ok e -> heap_ok s -> image s p m 1 -> sm_chan m = 1 ->
  bmp_small (sm_rows m) (sm_cols m) -> can name = true ->
  exists s' f, smwrite_bmp can (Some name) p e s = Ret tt s' /\ file_of s' name = Some f
    /\ other_files [name] s s' /\ old_unchanged s s'
    /\ bmp_header f (sm_rows m) (sm_cols m)
    /\ forall i, 0 <= i < sm_rows m -> bmp_shows f (sm_rows m) (sm_cols m) (fun i j _ => pix s m i j 0) i.
Proof.
  intros He Hs IM H1 Hsm Hc. destruct (write_gray e s p m name can He Hs IM H1 Hsm Hc) as (s' & f & X & F & OF & BH & _ & FB & OU & _).
  exists s', f. do 5 (split; [assumption|]). intros i Hi j c Hj Hcc. unfold bmp_pixel. rewrite FB by lia.
  f_equal. lia.
Qed.

(** The middle row of an odd height is stored red first. *)
Lemma write_middle e s p m name can : heap_ok s -> image s p m 1 -> sm_chan m = 3 ->
  bmp_small (sm_rows m) (sm_cols m) -> can name = true ->
  exists s' f, smwrite_bmp can (Some name) p e s = Ret tt s' /\ file_of s' name = Some f
    /\ forall i j c, 0 <= i < sm_rows m -> 2 * i + 1 = sm_rows m -> 0 <= j < sm_cols m -> 0 <= c < 3 ->
         bmp_pixel f (sm_rows m) (sm_cols m) i j c = pix s m i j c.
Proof.
  intros Hs IM H3 Hsm Hc. destruct (write_colour e s p m name can Hs IM H3 Hsm Hc) as (s' & f & X & F & OF & BH & _ & FB & _).
  exists s', f. do 2 (split; [assumption|]). intros i j c Hi Hm Hj Hcc. unfold bmp_pixel. rewrite FB by lia.
  unfold turned. replace (2 * (sm_rows m - 1 - i) + 1 =? sm_rows m) with true by lia. f_equal. lia.
Qed.

(** C16: what happens to the image. *)
Lemma write_effect e s p m name can : heap_ok s -> image s p m 1 -> sm_chan m = 3 ->
  bmp_small (sm_rows m) (sm_cols m) -> can name = true ->
  exists s', smwrite_bmp can (Some name) p e s = Ret tt s' /\ image s' p m 1
    /\ unchanged_except [sm_data m] s s'
    /\ forall i j k, in_image m i j k ->
         pix s' m i j k = if 2 * i + 1 =? sm_rows m then pix s m i j k else pix s m (sm_rows m - 1 - i) j (2 - k).
Proof.
  intros Hs IM H3 Hsm Hc. destruct (write_colour e s p m name can Hs IM H3 Hsm Hc) as
    (s' & f & X & F & OF & BH & _ & FB & IM' & PX & UN & _).
  exists s'. do 3 (split; [assumption|]). exact PX.
Qed.

Lemma write_one_row e s p m name can : heap_ok s -> image s p m 1 -> sm_chan m = 3 -> sm_rows m = 1 ->
  bmp_small (sm_rows m) (sm_cols m) -> can name = true ->
  exists s', smwrite_bmp can (Some name) p e s = Ret tt s' /\ image s' p m 1
    /\ (forall x, byte_at s' (sm_data m) x = byte_at s (sm_data m) x)
    /\ unchanged_except [sm_data m] s s'.
Proof.
  intros Hs IM H3 H1 Hsm Hc. destruct (write_colour e s p m name can Hs IM H3 Hsm Hc) as
    (s' & f & X & F & OF & BH & _ & FB & IM' & PX & UN & BB & _).
  exists s'. split; [exact X|]. split; [exact IM'|]. split; [|exact UN]. intros x.
  destruct (Z_lt_le_dec x 0) as [Hneg|Hpos].
  { unfold byte_at. destruct (bytes_at s' (sm_data m)) as [[[? n1] ?]|], (bytes_at s (sm_data m)) as [[[? n2] ?]|]; unfold inb;
      replace (0 <=? x) with false by lia; reflexivity. }
  destruct (Z_le_gt_dec (sm_rows m * sm_cols m * 3) x) as [Hx|Hx]; [auto|].
  pose proof (im_cols _ _ _ _ IM) as HC.
  destruct (grid_cover (sm_rows m) (sm_cols m) 3 x HC ltac:(lia) ltac:(lia)) as (i & j & k & Hi & Hj & Hk & ->).
  assert (Hin : in_image m i j k) by (unfold in_image; lia). specialize (PX i j k Hin). unfold turned in PX.
  replace (2 * i + 1 =? sm_rows m) with true in PX by lia. unfold pix, pixel_byte in PX. rewrite H3, Z.mul_1_r, Z.add_0_r in PX.
  exact PX.
Qed.

(** C15. *)
Lemma bmp_round_trip e s p m name can : heap_ok s -> image s p m 1 -> sm_chan m = 3 ->
  bmp_small (sm_rows m) (sm_cols m) -> can name = true ->
  exists s', smwrite_bmp can (Some name) p e s = Ret tt s'
    /\ forall e2 s2, env_ok e2 -> heap_ok s2 -> file_of s2 name = file_of s' name ->
         exists p' s3, smread_bmp (Some name) e2 s2 = Ret p' s3
           /\ new_picture s2 (sm_rows m) (sm_cols m) 3 (pix s m) s3 p'.
Proof.
  intros Hs IM H3 Hsm Hc. destruct (write_colour e s p m name can Hs IM H3 Hsm Hc) as (s' & f & X & F & OF & BH & BY & FB & _).
  exists s'. split; [exact X|]. intros e2 s2 He2 Hs2 Ff. rewrite F in Ff.
  destruct (smread_bmp_run e2 s2 name f _ _ He2 Hs2 Ff BH (im_rows _ _ _ _ IM) (im_cols _ _ _ _ IM) Hsm BY) as
    (p' & s3 & Y & m' & IM' & E1 & E2 & E3 & E4 & PX & REST).
  exists p', s3. split; [exact Y|]. exists m'. do 5 (split; [assumption|]). split; [|exact REST].
  intros i j k Hin. rewrite PX by auto. destruct Hin as (Hi & Hj & Hk). rewrite E1 in Hi. rewrite E2 in Hj. rewrite E4 in Hk.
  unfold bmp_read_value, bmp_pixel. destruct (Z.eqb_spec (2 * i + 1) (sm_rows m)) as [Hm|Hm].
  - rewrite FB by lia. unfold turned. now replace (2 * i + 1 =? sm_rows m) with true by lia.
  - rewrite FB by lia. unfold turned. replace (2 * (sm_rows m - 1 - i) + 1 =? sm_rows m) with false by lia.
    f_equal; lia.
Qed.

(** Reading any 24-bit file. *)
Lemma bmp_read_standard e s path f R C : env_ok e -> heap_ok s -> file_of s path = Some f ->
  bmp_header f R C -> 0 < R -> 0 < C -> bmp_small R C -> (forall x, In x f -> 0 <= x < 256) ->
  exists p' s', smread_bmp (Some path) e s = Ret p' s'
    /\ new_picture s R C 3 (fun i j k => if 2 * i + 1 =? R then bmp_pixel f R C i j k else bmp_pixel f R C i j (2 - k)) s' p'.
Proof.
  intros He Hs Hf Hh HR HC Hsm Hb.
  destruct (smread_bmp_run e s path f R C He Hs Hf Hh HR HC Hsm Hb) as (p' & s' & X & m' & IM & E1 & E2 & E3 & E4 & PX & REST).
  exists p', s'. split; [exact X|]. exists m'. do 5 (split; [assumption|]). split; [|exact REST].
  intros i j k Hin. rewrite PX by auto. unfold bmp_read_value. destruct (Z.eqb_spec (2 * i + 1) R); [|reflexivity].
  unfold bmp_pixel. f_equal. lia.
Qed.

(** Files that cannot be opened. *)
Lemma write_refused e s p can name : can name = false -> nonnull p = true ->
  forall m, sm_at s p = Some m -> sm_type m = 1 -> smwrite_bmp can (Some name) p e s = Exit.
Proof.
  intros Hc Hp m Hm Ht. rewrite smwrite_bmp_eq, bind_assert by auto. runs (sget_ok _ _ e _ Hm). rewrite bind_assert by lia.
  unfold fopen_w. rewrite Hc. reflexivity.
Qed.
Lemma read_missing e s name : file_of s name = None -> smread_bmp (Some name) e s = Exit.
Proof. intros H. unfold smread_bmp, fopen_r, bind. now rewrite H. Qed.
