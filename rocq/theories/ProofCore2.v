(** * Proofs: creation, copying and deletion of matrices. *)
From Verif Require Import Base Logic ModelCore ModelImage SpecBase SpecCore SpecImage ProofCore ProofHM ProofCopy.
From Coq Require Import String ZifyBool ZifyNat.
Ltac Zify.zify_post_hook ::= Z.div_mod_to_equations.
Open Scope Z_scope.

Lemma create_hm_fresh e s S L B ty es tag data wave :
  env_ok e -> heap_ok s -> type_size ty = Some es ->
  0 < S -> 0 < L -> 0 < B -> S * L * B * es <= 2147483647 -> B * 4 + 64 <= 2147483647 ->
  (3 <= List.length tag)%nat ->
  data = None \/ readable s data (S * L * B * es) ->
  wave = None \/ readable s wave (B * 4) ->
  exists p s', create_hyper_mat_with_data S L B ty tag data wave e s = Ret p s'
    /\ fresh_cube s S L B ty es tag data wave p s'.
Proof.
  intros He Hs Hty HS HL HB Hsz Hw Htag Hd Hwv.
  destruct tag as [|a [|b [|c r]]]; cbn in Htag; try lia.
  destruct (create_hm_run e s S L B ty es a b c r data wave) as (dd & dw & E & A & Aw); auto.
  set (k := List.length (objs s)) in *.
  fold (newhm e s S L B ty es [a; b; c] dd dw) in E.
  exists (Some k), (newhm e s S L B ty es [a; b; c] dd dw). split; [exact E|].
  pose proof (newhm_data e s S L B ty es [a; b; c] dd dw) as H2. fold k in H2.
  pose proof (newhm_wave e s S L B ty es [a; b; c] dd dw) as H3. fold k in H3.
  set (s' := newhm e s S L B ty es [a; b; c] dd dw) in *.
  assert (A1 := align64_spec (e_addr e k + 40)).
  assert (A2 := align64_spec (align64 (e_addr e k + 40) + S * L * B * es)).
  assert (Hb : 0 < e_addr e k < 2 ^ 46) by apply He.
  assert (IB : forall q i n, q = None \/ readable s q n -> 0 <= i < n -> Some (init_byte s q i) = initial s q i).
  { intros q i n [-> | Hr] Hi; [reflexivity|]. apply readable_isb in Hr as (x & sz & d & -> & H & N).
    unfold init_byte, initial. rewrite (byte_at_isb _ _ _ _ _ H) by lia. reflexivity. }
  exists (newhdr e s S L B ty [a; b; c]).
  exists (mkObj (e_addr e k) (40 + (S * L * B * es + 64) + (B * 4 + 64)) k true (CHM (newhdr e s S L B ty [a; b; c]))).
  exists (mkObj (align64 (e_addr e k + 40)) (S * L * B * es) k true (CBytes dd)).
  exists (mkObj (align64 (align64 (e_addr e k + 40) + S * L * B * es)) (B * 4) k true (CBytes dw)).
  split; [apply newhm_hdr|].
  cbn [newhdr hm_samples hm_lines hm_bands hm_type hm_il hm_data hm_wave o_live o_size o_addr o_root firstn]. fold k.
  do 5 (split; [reflexivity|]).
  split. { unfold block, s', newhm; cbn [objs]. unfold k at 1. rewrite (nth_error_app_new0 (objs s)). reflexivity. }
  split. { unfold block, s', newhm; cbn [objs]. unfold k at 1. rewrite (nth_error_app_new (objs s)). reflexivity. }
  split. { unfold block, s', newhm; cbn [objs]. unfold k at 1. rewrite (nth_error_app_new (objs s)). reflexivity. }
  do 8 (split; [reflexivity|]).
  split; [lia|]. split; [lia|]. split; [lia|]. split; [lia|]. split; [lia|].
  split. { intros i Hi. rewrite (byte_at_isb _ _ _ _ _ H2), A by auto. eapply IB; eauto. }
  split. { intros i Hi. rewrite (byte_at_isb _ _ _ _ _ H3), Aw by auto. eapply IB; eauto. }
  split; [apply newhm_old_unchanged|]. split; [exists k; auto|]. split; [reflexivity|].
  apply newhm_heap_ok; auto.
Qed.

Lemma create_hm_bad_dims e s S L B ty tag data wave : S <= 0 \/ L <= 0 \/ B <= 0 ->
  create_hyper_mat_with_data S L B ty tag data wave e s = Exit.
Proof.
  intros H. unfold create_hyper_mat_with_data.
  destruct (S >? 0) eqn:E1; [|reflexivity]. rewrite bind_assert by reflexivity.
  destruct (L >? 0) eqn:E2; [|reflexivity]. rewrite bind_assert by reflexivity.
  apply bind_assert_false. lia.
Qed.

(** ** simple matrices *)

Definition newsm (e : env) (s : st) (R C ty es ch : Z) (dd : Z -> Z) : st :=
  let k := List.length (objs s) in
  mkSt (objs s ++
     [ mkObj (e_addr e k) (32 + (R * C * es * ch + 64)) k true
         (CSM (mkSM R C ty ch es (Some (k + 1)%nat)));
       mkObj (align64 (e_addr e k + 32)) (R * C * es * ch) k true (CBytes dd) ]) (files s).

Definition newsm_hdr (s : st) (R C ty es ch : Z) : smat :=
  mkSM R C ty ch es (Some (List.length (objs s) + 1)%nat).

Section NewSM.
  Variables (e : env) (s : st) (R C ty es ch : Z) (dd : Z -> Z).
  Let k := List.length (objs s).
  Let s' := newsm e s R C ty es ch dd.
  Lemma newsm_at : sm_at s' (Some k) = Some (newsm_hdr s R C ty es ch).
  Proof. unfold s', newsm, sm_at; cbn [objs]. rewrite (nth_error_app_new0 (objs s)). reflexivity. Qed.
  Lemma newsm_data : isb s' (k + 1) (R * C * es * ch) dd.
  Proof. eapply obj_isb. unfold s', newsm; cbn [objs]. rewrite (nth_error_app_new (objs s)). reflexivity. Qed.
  Lemma newsm_old q n d : isb s q n d -> isb s' q n d.
  Proof. apply isb_app_old. Qed.
  Lemma newsm_old_unchanged : old_unchanged s s'.
  Proof. intros i Hi. unfold s', newsm; cbn [objs]. now rewrite nth_error_app1. Qed.
  Lemma newsm_putd d : putd s' (k + 1) d = newsm e s R C ty es ch d.
  Proof. unfold putd, s', newsm; cbn [objs files]. rewrite (lupd_app_new (objs s)). reflexivity. Qed.
  Lemma newsm_heap_ok : heap_ok s -> heap_ok s'.
  Proof. intros H. unfold s', newsm. eapply heap_ok_app; eauto. fold k. repeat constructor; cbn; lia. Qed.
End NewSM.

Lemma create_sm_run e s R C ty es ch :
  env_ok e -> heap_ok s -> type_size ty = Some es ->
  0 < R -> 0 < C -> 0 < ch -> R * C * es * ch + 96 <= 2147483647 ->
  exists dd,
    create_simple_mat R C ty ch e s = Ret (Some (List.length (objs s))) (newsm e s R C ty es ch dd)
    /\ (forall i, 0 <= i < R * C * es -> dd i mod 256 = 0)
    /\ (forall i, R * C * es <= i < R * C * es * ch -> dd i = e_junk e (List.length (objs s) + 1) i).
Proof.
  intros He Hs Hty HR HC Hch Hsz. set (k := List.length (objs s)).
  assert (He1 := type_size_range _ _ Hty). assert (Hes := type_size_elemsize _ _ Hty).
  assert (Hb : 0 < e_addr e k < 2 ^ 46) by apply He.
  assert (P1 : 0 < R * C) by nia. assert (P2 : 0 < R * C * es) by nia.
  assert (P3 : R * C * es <= R * C * es * ch) by nia.
  assert (P4 : R * C <= R * C * es) by nia.
  unfold create_simple_mat, create_simple_mat_with_data. cbn [nonnull].
  rewrite bind_assert by lia. rewrite Hes.
  assert (E0 : (R * C * es)%C = Some (R * C * es)).
  { unfold ci. rewrite !cmul_ok by lia. reflexivity. }
  assert (E1 : (R * C * es * ch)%C = Some (R * C * es * ch)).
  { unfold ci at 4. rewrite E0. rewrite cmul_ok by lia. reflexivity. }
  rewrite bind_assoc. runs (ev_ok _ _ e s E1).
  set (N := R * C * es * ch) in *.
  assert (E2 : (SIZEOF_SM + (N + 64))%C = Some (32 + (N + 64))).
  { unfold ci, SIZEOF_SM. rewrite !cadd_ok by lia. reflexivity. }
  runs (ev_ok _ _ e s E2).
  set (mem := 32 + (N + 64)).
  assert (Hmal : malloc mem e s =
      Ret (Some k) (mkSt (objs s ++ [mkObj (e_addr e k) mem k true (CBytes (e_junk e k))]) (files s))).
  { unfold malloc. replace ((0 <=? mem) && (mem <? 2 ^ 62)) with true. reflexivity.
    change (2 ^ 62) with 4611686018427387904. subst mem. lia. }
  runs Hmal. cbn [nonnull]. rewrite bind_assert by reflexivity.
  set (s1 := mkSt (objs s ++ _) (files s)).
  assert (Hb1 : addr_of (Some k) e s1 = Ret (e_addr e k) s1).
  { unfold addr_of, s1; cbn [objs]. rewrite (nth_error_app_new0 (objs s)). reflexivity. }
  rewrite bind_assoc. runs Hb1. rewrite bind_assoc. runs (ev_ok _ _ e s1 E0).
  rewrite bind_assoc. runs (ev_ok _ _ e s1 E1). fold N.
  replace (Z.max N (R * C * es)) with N by lia.
  set (a1 := align64 (e_addr e k + SIZEOF_SM)).
  assert (A1 := align64_spec (e_addr e k + SIZEOF_SM)). fold a1 in A1. unfold SIZEOF_SM in A1 at 1 2.
  assert (Hc1 : carve (Some k) SIZEOF_SM a1 N e s1 =
      Ret (Some (k + 1)%nat)
          (mkSt (objs s ++ [mkObj (e_addr e k) mem k true (CBytes (e_junk e k));
                            mkObj a1 N k true (CBytes (e_junk e (k + 1)))]) (files s))).
  { unfold carve, s1; cbn [objs files]. rewrite (nth_error_app_new0 (objs s)). cbn [nth_error o_live o_addr o_size].
    match goal with |- context [forallb ?P ?l] => replace (forallb P l) with true end.
    2:{ symmetry. apply forallb_number. intros j o Hj. cbn [Nat.add]. unfold disjoint_part.
        destruct (Nat.lt_ge_cases j k) as [Hlt|Hge].
        - rewrite nth_error_app1 in Hj by auto. apply Hs in Hj. fold k in Hj.
          replace (Nat.eqb (o_root o) k) with false by lia. reflexivity.
        - rewrite nth_error_app2 in Hj by auto. fold k in Hj.
          destruct (j - k)%nat eqn:Ejk; cbn in Hj; [|destruct n; discriminate].
          replace (Nat.eqb j k) with true by lia. now rewrite orb_true_r. }
    match goal with |- (if ?c then _ else _) = _ => replace c with true by (subst mem; unfold SIZEOF_SM; lia) end.
    rewrite app_length. cbn [List.length]. fold k. rewrite <- app_assoc. reflexivity. }
  rewrite bind_assoc. runs Hc1.
  set (s2 := mkSt (objs s ++ _) (files s)).
  assert (Hi2 : isb s2 (k + 1) N (e_junk e (k + 1))).
  { eapply obj_isb. unfold s2; cbn [objs]. rewrite (nth_error_app_new (objs s)). reflexivity. }
  rewrite bind_assoc.
  runs (memset_ok e _ _ _ _ 0 0 (R * C * es) Hi2 ltac:(lia) ltac:(lia) ltac:(lia)).
  rewrite bind_ret_l.
  set (dd := fun i : Z => if (0 <=? i) && (i <? 0 + R * C * es) then 0 mod 256 else e_junk e (k + 1) i).
  exists dd. split.
  - unfold putd, s2; cbn [objs files]. rewrite (lupd_app_new (objs s)). cbn [lupd].
    unfold bind, set_header; cbn [objs]. rewrite (nth_error_app_new0 (objs s)). cbn [nth_error o_live].
    unfold ret. f_equal. unfold putc, newsm; cbn [objs files]. fold k.
    rewrite (lupd_app_new0 (objs s)). reflexivity.
  - split; intros i Hi; unfold dd.
    + replace ((0 <=? i) && (i <? 0 + R * C * es)) with true by lia. reflexivity.
    + replace ((0 <=? i) && (i <? 0 + R * C * es)) with false by lia. reflexivity.
Qed.

Lemma newsm_fresh e s R C ty es ch dd : env_ok e -> heap_ok s ->
  0 < R * C * es * ch ->
  fresh_matrix s R C ty es ch (Some (List.length (objs s))) (newsm e s R C ty es ch dd).
Proof.
  intros He Hs HN. set (k := List.length (objs s)).
  assert (A1 := align64_spec (e_addr e k + 32)).
  exists (newsm_hdr s R C ty es ch).
  exists (mkObj (e_addr e k) (32 + (R * C * es * ch + 64)) k true (CSM (newsm_hdr s R C ty es ch))).
  exists (mkObj (align64 (e_addr e k + 32)) (R * C * es * ch) k true (CBytes dd)).
  split; [apply newsm_at|].
  cbn [newsm_hdr sm_rows sm_cols sm_type sm_chan sm_esize sm_data o_live o_size o_addr o_root]. fold k.
  do 5 (split; [reflexivity|]).
  split. { unfold block, newsm; cbn [objs]. unfold k at 1. rewrite (nth_error_app_new0 (objs s)). reflexivity. }
  split. { unfold block, newsm; cbn [objs]. unfold k at 1. rewrite (nth_error_app_new (objs s)). reflexivity. }
  do 5 (split; [reflexivity|]).
  split; [lia|]. split; [lia|]. split; [lia|].
  split; [apply newsm_old_unchanged|]. split; [exists k; auto|]. split; [reflexivity|].
  apply newsm_heap_ok; auto.
Qed.

(** ** Deletion *)

Lemma block_sm s k : block s (Some k) = nth_error (objs s) k.
Proof. reflexivity. Qed.

Lemma released_one s k : released [Some k] s (mkSt (map (kill_root k) (objs s)) (files s)).
Proof.
  split; [cbn; apply map_length|]. split; [reflexivity|].
  intros i o Hi. cbn [objs]. destruct (in_dec _ _ _) as [Hin|Hin].
  - destruct Hin as [[= E]|[]]. exists (kill_root k o). rewrite nth_error_map, Hi. split; auto.
    apply kill_same. auto.
  - rewrite nth_error_map, Hi. cbn. f_equal. apply kill_other. intros E. apply Hin. left. congruence.
Qed.

Lemma addr_of_ok e s k o : nth_error (objs s) k = Some o -> addr_of (Some k) e s = Ret (o_addr o) s.
Proof. intros H. unfold addr_of. now rewrite H. Qed.

Lemma delete_own_ok e s p m h :
  owns_data s p m -> block s p = Some h -> o_addr h mod 16 = 0 -> o_addr h mod 64 <> 48 ->
  exists s', delete_simple_mat p e s = Ret tt s' /\ released [p] s s'.
Proof.
  intros (h' & d & Hm & Hh & Hd & -> & Hl & Hr & Ha & Hb) Hh' H16 Hx.
  assert (h' = h) as -> by congruence.
  eexists. split; [|apply released_one].
  unfold delete_simple_mat. cbn [nonnull]. runs (sget_ok _ _ e _ Hm).
  runs (addr_of_ok e _ _ _ Hh).
  unfold block in Hd. destruct (sm_data m) as [q|] eqn:Eq; [|discriminate].
  runs (addr_of_ok e _ _ _ Hd).
  replace (o_addr h + 64 >=? o_addr d) with true by lia.
  eapply free_ok; eauto.
Qed.

Lemma delete_own_ub e s p m h :
  owns_data s p m -> block s p = Some h -> o_addr h mod 64 = 48 ->
  delete_simple_mat p e s = UB.
Proof.
  intros (h' & d & Hm & Hh & Hd & -> & Hl & Hr & Ha & Hb) Hh' Hx.
  assert (h' = h) as -> by congruence.
  unfold delete_simple_mat. cbn [nonnull]. runs (sget_ok _ _ e _ Hm).
  runs (addr_of_ok e _ _ _ Hh).
  unfold block in Hd. destruct (sm_data m) as [q|] eqn:Eq; [|discriminate].
  runs (addr_of_ok e _ _ _ Hd).
  replace (o_addr h + 64 >=? o_addr d) with false by lia.
  apply bind_ub. unfold free. rewrite Hd.
  assert (q <> o_root d).
  { intros ->. rewrite Hr in Hd. cbn in Hh. rewrite Hh in Hd. injection Hd as ->.
    lia. }
  replace (Nat.eqb (o_root d) q) with false by lia. now rewrite andb_false_r.
Qed.

Lemma fresh_owns s R C ty es ch p s' :
  fresh_matrix s R C ty es ch p s' -> exists m, owns_data s' p m.
Proof.
  intros (m & h & d & H1 & H2 & H3 & H4 & H5 & H6 & H7 & H8 & H9 & H10 & H11 & H12 & H13 & H14 & H15 & H16 & _).
  exists m, h, d. repeat (split; [assumption|]). lia.
Qed.

(** Wrapped data above the header (plus 64): both allocations are released. *)
Lemma delete_wrapped_above e s p m h d :
  wraps_data s p m -> block s p = Some h -> block s (sm_data m) = Some d ->
  o_addr h + 64 < o_addr d ->
  exists s', delete_simple_mat p e s = Ret tt s' /\ released [p; sm_data m] s s'.
Proof.
  intros (h' & d' & Hm & Hh & Hd & -> & Hl & Ed & Hld & Hne) Hh' Hd' Ha.
  assert (h' = h) as -> by congruence. assert (d' = d) as -> by congruence. clear Hh' Hd'.
  unfold delete_simple_mat. cbn [nonnull]. runs (sget_ok _ _ e _ Hm).
  runs (addr_of_ok e _ _ _ Hh). rewrite Ed in *. cbn in Hh, Hd.
  runs (addr_of_ok e _ _ _ Hd).
  replace (o_addr h + 64 >=? o_addr d) with false by lia.
  runs (free_ok e s _ _ Hd Hld eq_refl).
  set (s1 := mkSt (map (kill_root (o_root d)) (objs s)) (files s)).
  assert (Hh1 : nth_error (objs s1) (o_root h) = Some h).
  { unfold s1; cbn. rewrite nth_error_map, Hh. cbn. f_equal. apply kill_other. auto. }
  assert (Hm1 : sm_at s1 (Some (o_root h)) = Some m).
  { rewrite (nth_sm_at s); auto. rewrite Hh1. auto. }
  runs (set_header_ok_sm e s1 _ _ (CSM (mkSM (sm_rows m) (sm_cols m) (sm_type m) (sm_chan m) (sm_esize m) None)) Hm1).
  set (c := CSM _). set (s2 := putc s1 (o_root h) c).
  assert (Hh2 : nth_error (objs s2) (o_root h) = Some (set_cont c h)).
  { unfold s2, putc; cbn. rewrite lupd_nth_eq. cbn in Hh1. rewrite Hh1. reflexivity. }
  rewrite (free_ok e s2 _ _ Hh2 Hl eq_refl). eexists. split; [reflexivity|].
  split. { cbn. rewrite map_length. unfold s2, putc; cbn. rewrite lupd_length. apply map_length. }
  split; [reflexivity|].
  intros i o Hi. cbn [objs]. rewrite nth_error_map.
  assert (X : nth_error (objs s1) i = Some (kill_root (o_root d) o)) by (unfold s1; cbn; now rewrite nth_error_map, Hi).
  destruct (Nat.eq_dec i (o_root h)) as [->|Hih].
  { rewrite Hh2. cbn [option_map]. assert (o = h) as -> by congruence.
    destruct (in_dec _ _ _) as [Hin|Hin]; [|exfalso; apply Hin; left; reflexivity].
    eexists. split; [reflexivity|]. apply kill_same. reflexivity. }
  assert (X2 : nth_error (objs s2) i = Some (kill_root (o_root d) o)).
  { unfold s2, putc; cbn. rewrite lupd_nth_ne; auto. }
  rewrite X2. cbn [option_map].
  destruct (in_dec _ _ _) as [Hin|Hin].
  - eexists. split; [reflexivity|].
    destruct Hin as [[= E]|[[= E]|[]]].
    + apply kill_same. rewrite kill_other by congruence. congruence.
    + pose proof (kill_same (o_root d) o (eq_sym E)) as Y. unfold kill_root at 1. destruct (Nat.eqb _ _); auto.
  - rewrite (kill_other (o_root d)) by (intros E; apply Hin; cbn; rewrite E; auto).
    rewrite kill_other by (intros E; apply Hin; cbn; rewrite E; auto). reflexivity.
Qed.

(** Wrapped data at or below header + 64: the data stays allocated. *)
Lemma delete_wrapped_below e s p m h d :
  wraps_data s p m -> block s p = Some h -> block s (sm_data m) = Some d ->
  o_addr d <= o_addr h + 64 ->
  exists s', delete_simple_mat p e s = Ret tt s' /\ released [p] s s' /\ block s' (sm_data m) = Some d.
Proof.
  intros (h' & d' & Hm & Hh & Hd & -> & Hl & Ed & Hld & Hne) Hh' Hd' Ha.
  assert (h' = h) as -> by congruence. assert (d' = d) as -> by congruence. clear Hh' Hd'.
  unfold delete_simple_mat. cbn [nonnull]. runs (sget_ok _ _ e _ Hm).
  runs (addr_of_ok e _ _ _ Hh). rewrite Ed in *. cbn in Hh, Hd.
  runs (addr_of_ok e _ _ _ Hd).
  replace (o_addr h + 64 >=? o_addr d) with true by lia.
  rewrite (free_ok e s _ _ Hh Hl eq_refl). eexists. split; [reflexivity|].
  split; [apply released_one|]. cbn. rewrite nth_error_map, Hd. cbn. f_equal. apply kill_other. auto.
Qed.

(** ** simple_mat_copy *)

Lemma image_old s s' p m es : old_unchanged s s' -> image s p m es -> image s' p m es.
Proof.
  intros HO [Hh Hty HR HC Hch Hsz Hd]. constructor; auto.
  - destruct (sm_nonnull _ _ _ Hh) as [k ->]. rewrite (nth_sm_at s); auto. apply HO.
    apply sm_at_obj in Hh as (a & n & r & Hh). eapply nth_error_lt; eauto.
  - apply readable_isb in Hd as (q & sz & d & -> & H & N). exists q, sz, d. repeat split; auto.
    rewrite (nth_bytes_at s); auto. apply HO. eapply isb_lt; eauto.
Qed.

Lemma image_pos s p m es : image s p m es ->
  (es = 1 \/ es = 2 \/ es = 4 \/ es = 8)
  /\ 0 < sm_rows m * sm_cols m
  /\ sm_rows m * sm_cols m <= sm_rows m * sm_cols m * es
  /\ sm_rows m * sm_cols m * es <= sm_rows m * sm_cols m * es * sm_chan m.
Proof.
  intros [Hh Hty HR HC Hch Hsz Hd]. pose proof (type_size_range _ _ Hty).
  split; auto. assert (0 < sm_rows m * sm_cols m) by nia.
  split; auto. split; [nia|]. assert (0 < sm_rows m * sm_cols m * es) by nia. nia.
Qed.

Lemma pix_range R C ch es i j k t :
  0 <= i < R -> 0 <= j < C -> 0 <= k < ch -> 0 <= t < es ->
  0 <= ((i * C + j) * ch + k) * es + t < R * C * es * ch.
Proof.
  intros. assert (0 <= i * C + j < R * C) by nia.
  assert (0 <= (i * C + j) * ch + k < R * C * ch) by nia. nia.
Qed.

Lemma newsm_image e s R C ty es ch dd : type_size ty = Some es -> 0 < R -> 0 < C -> 0 < ch ->
  R * C * es * ch + 96 <= 2147483647 ->
  image (newsm e s R C ty es ch dd) (Some (List.length (objs s))) (newsm_hdr s R C ty es ch) es.
Proof.
  intros. constructor; cbn [newsm_hdr sm_rows sm_cols sm_type sm_chan sm_data]; auto.
  - apply newsm_at.
  - eapply isb_readable; [apply newsm_data|lia].
Qed.

Lemma copy_sm_run e s p m es : env_ok e -> heap_ok s -> image s p m es ->
  exists dd, simple_mat_copy p e s =
    Ret (Some (List.length (objs s))) (newsm e s (sm_rows m) (sm_cols m) (sm_type m) es (sm_chan m) dd)
    /\ forall x, 0 <= x < sm_rows m * sm_cols m * es * sm_chan m -> Some (dd x mod 256) = byte_at s (sm_data m) x.
Proof.
  intros He Hs IM. pose proof (image_pos _ _ _ _ IM) as (P0 & P1 & P2 & P3).
  destruct IM as [Hh Hty HR HC Hch Hsz Hd].
  unfold simple_mat_copy. runs (sget_ok _ _ e _ Hh).
  destruct (create_sm_run e s (sm_rows m) (sm_cols m) (sm_type m) es (sm_chan m)) as (d0 & E & _); auto.
  runs E. pose proof (newsm_at e s (sm_rows m) (sm_cols m) (sm_type m) es (sm_chan m) d0) as Hn.
  runs (sget_ok _ _ e _ Hn). rewrite (type_size_elemsize _ _ Hty). cbn [newsm_hdr sm_data].
  set (R := sm_rows m) in *. set (C := sm_cols m) in *. set (ch := sm_chan m) in *.
  assert (E1 : (R * C * es * ch)%C = Some (R * C * es * ch)).
  { unfold ci. rewrite !cmul_ok by lia. reflexivity. }
  runs (ev_ok _ _ e (newsm e s R C (sm_type m) es ch d0) E1).
  apply readable_isb in Hd as (q & sz & d & -> & Hq & Nq).
  eexists. split.
  - erewrite bind_ret; [reflexivity|].
    rewrite (memcpy_ok e _ (List.length (objs s) + 1) (R * C * es * ch) d0 q sz d); try lia.
    + rewrite newsm_putd. reflexivity.
    + apply newsm_data.
    + apply newsm_old; auto.
    + eapply isb_old_ne; eauto.
  - intros x Hx. cbv beta. replace ((0 <=? x) && (x <? 0 + R * C * es * ch)) with true by lia.
    rewrite (byte_at_isb _ _ _ _ _ Hq) by lia. do 3 f_equal. lia.
Qed.

Lemma copy_sm_ok e s p m es : env_ok e -> heap_ok s -> image s p m es ->
  exists p' s', simple_mat_copy p e s = Ret p' s' /\ copied_matrix s m es p' s'.
Proof.
  intros He Hs IM. destruct (copy_sm_run e s p m es He Hs IM) as (dd & E & A).
  do 2 eexists. split; [exact E|].
  pose proof (image_pos _ _ _ _ IM) as (P0 & P1 & P2 & P3).
  destruct IM as [Hh Hty HR HC Hch Hsz Hd].
  eexists. split; [apply newsm_image; auto|].
  cbn [newsm_hdr sm_rows sm_cols sm_type sm_chan sm_data].
  do 4 (split; [reflexivity|]). split; [|split; [|split; [|split; [|split]]]].
  - intros i j k t (Hi & Hj & Hk) Ht. unfold pixel_byte. cbn [newsm_hdr sm_cols sm_chan sm_data].
    pose proof (pix_range _ _ _ es i j k t Hi Hj Hk Ht) as RG.
    rewrite <- A by lia. eapply byte_at_isb; [apply newsm_data|lia].
  - eexists. split; [reflexivity|lia].
  - eexists. split; [reflexivity|lia].
  - apply newsm_old_unchanged.
  - reflexivity.
  - apply newsm_heap_ok; auto.
Qed.

(** Writes to data blocks that are different are independent. *)
Lemma store_independent e s p q i v s' x :
  store8 p i v e s = Ret tt s' -> p <> q -> byte_at s' q x = byte_at s q x.
Proof.
  unfold store8. destruct (bytes_at s p) as [[[k n] d]|] eqn:E; [|discriminate].
  destruct (inb i n); [|discriminate]. intros [= <-] Hne.
  apply bytes_at_inv in E as [-> E]. apply byte_at_putd_ne. congruence.
Qed.
