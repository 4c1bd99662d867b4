(** * Proofs: statements assembled for the core properties. *)
From Verif Require Import Base Logic ModelCore ModelImage SpecBase SpecCore SpecImage ProofCore ProofHM ProofCopy ProofImage2 ProofCore2 Fixtures ProofEx.
From Coq Require Import String ZifyBool ZifyNat.
Ltac Zify.zify_post_hook ::= Z.div_mod_to_equations.
Open Scope Z_scope.

Lemma create_sm_fresh e s R C ty es ch :
  env_ok e -> heap_ok s -> type_size ty = Some es ->
  0 < R -> 0 < C -> 0 < ch -> R * C * es * ch + 96 <= 2147483647 ->
  exists p s', create_simple_mat R C ty ch e s = Ret p s'
    /\ fresh_matrix s R C ty es ch p s'
    /\ exists m, sm_at s' p = Some m /\ all_zero s' (sm_data m) (R * C * es).
Proof.
  intros He Hs Hty HR HC Hch Hsz.
  destruct (create_sm_run e s R C ty es ch) as (dd & E & A & _); auto.
  pose proof (type_size_range _ _ Hty).
  assert (0 < R * C) by nia. assert (0 < R * C * es) by nia.
  assert (R * C * es <= R * C * es * ch) by nia.
  do 2 eexists. split; [exact E|]. split; [apply newsm_fresh; auto; lia|].
  eexists. split; [apply newsm_at|]. intros i Hi. cbn [newsm_hdr sm_data].
  erewrite byte_at_isb by (try apply newsm_data; lia). now rewrite A.
Qed.

(** With more than one channel, stale memory is visible in the new matrix. *)
Lemma create_sm_stale e s R C ty es ch :
  env_ok e -> heap_ok s -> type_size ty = Some es ->
  0 < R -> 0 < C -> 2 <= ch -> R * C * es * ch + 96 <= 2147483647 ->
  e_junk e (List.length (objs s) + 1) (R * C * es) mod 256 <> 0 ->
  exists p s' m, create_simple_mat R C ty ch e s = Ret p s' /\ sm_at s' p = Some m
    /\ ~ all_zero s' (sm_data m) (R * C * es * ch).
Proof.
  intros He Hs Hty HR HC Hch Hsz HJ.
  destruct (create_sm_run e s R C ty es ch) as (dd & E & _ & A); auto; [lia|].
  pose proof (type_size_range _ _ Hty).
  assert (0 < R * C) by nia. assert (0 < R * C * es) by nia.
  assert (R * C * es < R * C * es * ch) by nia.
  do 3 eexists. split; [exact E|]. split; [apply newsm_at|]. intros Z.
  specialize (Z (R * C * es) ltac:(lia)). cbn [newsm_hdr sm_data] in Z.
  erewrite byte_at_isb in Z by (try apply newsm_data; lia). rewrite A in Z by lia.
  injection Z as Z. auto.
Qed.

Lemma copy_sm_independent e s p m es p' s' e' i v s'' m' :
  env_ok e -> heap_ok s -> image s p m es -> simple_mat_copy p e s = Ret p' s' ->
  sm_at s' p' = Some m' ->
  (store8 (sm_data m) i v e' s' = Ret tt s'' -> forall x, byte_at s'' (sm_data m') x = byte_at s' (sm_data m') x)
  /\ (store8 (sm_data m') i v e' s' = Ret tt s'' -> forall x, byte_at s'' (sm_data m) x = byte_at s' (sm_data m) x).
Proof.
  intros He Hs IM E Hm. destruct (copy_sm_ok e s p m es He Hs IM) as (q & t & E2 & m2 & IM2 & _ & _ & _ & _ & _ & _ & F & _).
  rewrite E in E2. injection E2 as <- <-. destruct IM2 as [Hh2 _ _ _ _ _ _].
  assert (m2 = m') as -> by congruence.
  assert (N : sm_data m <> sm_data m').
  { destruct IM as [_ _ _ _ _ _ Hd]. apply readable_isb in Hd as (k & sz & d & -> & Hk & _). apply isb_lt in Hk.
    destruct F as (k2 & -> & L). intros [= X]. lia. }
  split; intros ST x; eapply store_independent; eauto.
Qed.

Lemma same_layout_refuted :
  exists e s p m l l0 es f, env_ok e /\ heap_ok s /\ cube s p m l es /\
    conversion (layout_name l0) (layout_name l) = Some f /\
    ~ exists p' s', f p e s = Ret p' s' /\ converted_to s m l es s' p' l.
Proof.
  exists ex_env, (ex_cube BSQ), (Some 0%nat), (ex_hdr BSQ), BSQ, BIL, 2, bil2bsq.
  split; [apply ex_env_ok|]. split; [apply ex_cube_heap|]. split; [apply ex_cube_cube|].
  split; [reflexivity|]. intros (p' & s' & E & m' & C & _).
  rewrite (conversion_same _ _ _ _ BSQ BIL 2 bil2bsq (ex_cube_cube BSQ) eq_refl) in E.
  injection E as <- <-. destruct C as [C _ _ _ _ _ _ _ _ _ _]. discriminate.
Qed.

Lemma copy_refuted :
  exists e s p m l es, env_ok e /\ heap_ok s /\ cube s p m l es /\
    ~ exists p' s', hyper_mat_copy p e s = Ret p' s' /\ converted_to s m l es s' p' l.
Proof.
  exists ex_env, (ex_cube BSQ), (Some 0%nat), (ex_hdr BSQ), BSQ, 2.
  split; [apply ex_env_ok|]. split; [apply ex_cube_heap|]. split; [apply ex_cube_cube|].
  intros (p' & s' & E & m' & C & _).
  rewrite hyper_mat_copy_never in E. injection E as <- <-. destruct C as [C _ _ _ _ _ _ _ _ _ _]. discriminate.
Qed.

Lemma create_sm_stale_ex : exists e s R C ty es ch p s' m,
  env_ok e /\ heap_ok s /\ type_size ty = Some es /\ 0 < R /\ 0 < C /\ 0 < ch /\
  create_simple_mat R C ty ch e s = Ret p s' /\ sm_at s' p = Some m
  /\ ~ all_zero s' (sm_data m) (R * C * es * ch).
Proof.
  destruct (create_sm_stale ex_env (mkSt [] []) 2 2 1 1 3) as (p & s' & m & H).
  - apply ex_env_ok.
  - intros i o. destruct i; discriminate.
  - reflexivity.
  - lia.
  - lia.
  - lia.
  - lia.
  - cbn. lia.
  - exists ex_env, (mkSt [] []), 2, 2, 1, 1, 3, p, s', m. split; [apply ex_env_ok|].
    split; [intros i o; destruct i; discriminate|]. split; [reflexivity|].
    repeat (split; [lia|]). exact H.
Qed.

(** create followed by delete, depending on the address malloc chose. *)
Lemma create_delete e s R C ty es ch :
  env_ok e -> heap_ok s -> type_size ty = Some es ->
  0 < R -> 0 < C -> 0 < ch -> R * C * es * ch + 96 <= 2147483647 ->
  exists p s1, create_simple_mat R C ty ch e s = Ret p s1
    /\ (e_addr e (List.length (objs s)) mod 64 <> 48 ->
        exists s2, delete_simple_mat p e s1 = Ret tt s2 /\ released [p] s1 s2)
    /\ (e_addr e (List.length (objs s)) mod 64 = 48 -> delete_simple_mat p e s1 = UB).
Proof.
  intros He Hs Hty HR HC Hch Hsz.
  destruct (create_sm_run e s R C ty es ch) as (dd & E & _); auto.
  pose proof (type_size_range _ _ Hty).
  assert (0 < R * C) by nia. assert (0 < R * C * es) by nia.
  assert (R * C * es <= R * C * es * ch) by nia.
  do 2 eexists. split; [exact E|].
  pose proof (newsm_fresh e s R C ty es ch dd He Hs ltac:(lia)) as F.
  destruct (fresh_owns _ _ _ _ _ _ _ _ F) as (m & O).
  set (k := List.length (objs s)) in *.
  assert (Hb : block (newsm e s R C ty es ch dd) (Some k) =
     Some (mkObj (e_addr e k) (32 + (R * C * es * ch + 64)) k true (CSM (newsm_hdr s R C ty es ch)))).
  { unfold block, newsm; cbn [objs]. unfold k at 1. rewrite (nth_error_app_new0 (objs s)). reflexivity. }
  split; intros Hx.
  - eapply delete_own_ok; eauto. cbn. apply He.
  - eapply delete_own_ub; eauto.
Qed.

Lemma delete_refuted : exists e s p s1,
  env_ok e /\ heap_ok s /\ create_simple_mat 4 4 1 1 e s = Ret p s1 /\ delete_simple_mat p e s1 = UB.
Proof.
  destruct (create_delete ex_env48 (mkSt [] []) 4 4 1 1 1) as (p & s1 & E & _ & U); try lia.
  - apply ex_env48_ok.
  - intros i o. destruct i; discriminate.
  - reflexivity.
  - exists ex_env48, (mkSt [] []), p, s1. split; [apply ex_env48_ok|].
    split; [intros i o; destruct i; discriminate|]. split; [exact E|]. apply U. reflexivity.
Qed.
