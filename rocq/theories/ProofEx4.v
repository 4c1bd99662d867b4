(** * Concrete states and counterexamples for the numeric properties. *)
From Verif Require Import Base ModelFloat ModelCore ModelConv SpecBase SpecNum Fixtures Fixtures2 ProofEx ProofFloat ProofConv.
From Coq Require Import Floats.SpecFloat Lia.
Open Scope Z_scope.

(** The bytes of a list of 4-byte words. *)
Definition words4 (l : list Z) (i : Z) : Z := nth (Z.to_nat (i / 4)) l 0 / 256 ^ (i mod 4) mod 256.

(** A 6x1x1 float cube: 200, -128, 40000, 70000, 3e9, -5; and a float matrix. *)
Definition six_floats : list Z := [1128792064; 3271557120; 1193033728; 1200142336; 1328730206; 3231711232].
Definition st_floats : st :=
  mkSt (hc_objs 0 6 1 1 4 4 BIP (words4 six_floats) (fun i => i) ++ im_objs 3 1 6 4 1 4 (words4 six_floats)) [].
Lemma st_floats_ok : heap_ok st_floats /\ cube st_floats (Some 0%nat) (hc_hdr 0 6 1 1 4 BIP) BIP 4
  /\ image st_floats (Some 3%nat) (im_hdr 3 1 6 4 1 4) 4.
Proof. split; [ex_heap_tac|split; [ex_cube_tac|ex_image_tac]]. Qed.

Lemma six_values : map (fun b => sf_num (fl_of_bits b)) six_floats
  = map (fun z => Some (z * 2 ^ 1074)) [200; -128; 40000; 70000; 3000000000; -5].
Proof. vm_compute. reflexivity. Qed.

Lemma exact_rounds raw z : sf_num (fl_of_bits raw) = Some (z * 2 ^ 1074) -> rounds_to raw z.
Proof.
  intros H. exists (z * sf_one). split; [now rewrite sf_one_eq|]. pose proof sf_one_pos.
  unfold nearest_even. rewrite Z.sub_diag. cbn [Z.abs]. split; lia.
Qed.

Definition narrow_faults : list (Z * Z * Z * Z * (Z -> Z) * (ptr -> M ptr)) :=
  [ (1, 1, 0, 255, (fun y => y), hyper_mat_float2uchar);
    (1, 1, -128, 127, signed_word 1, hyper_mat_float2char);
    (2, 2, -32768, 32767, signed_word 2, hyper_mat_float2short);
    (3, 4, -2147483648, 2147483647, signed_word 4, hyper_mat_float2int);
    (12, 2, 0, 65535, (fun y => y), hyper_mat_float2ushort);
    (13, 4, 0, 4294967295, (fun y => y), hyper_mat_float2uint) ].

(** What the conversion of an integral float gives. *)
Lemma stored_exact raw z z0 : sf_num (fl_of_bits raw) = Some (z0 * 2 ^ 1074) -> int_or_indefinite raw z ->
  z = if (-2147483648 <=? z0) && (z0 <=? 2147483647) then z0 else -2147483648.
Proof.
  intros Hv Hz. pose proof (exact_rounds _ _ Hv) as R.
  destruct ((-2147483648 <=? z0) && (z0 <=? 2147483647))%bool eqn:E.
  - apply andb_prop in E. apply (indefinite_unique raw z z0 Hz R). lia.
  - destruct Hz as [[(n & N & A) Hr]|[Hz _]]; [|exact Hz]. exfalso.
    destruct R as (n' & N' & A'). rewrite N in N'. injection N' as <-.
    assert (z = z0) by (eapply nearest_even_unique; eauto; apply sf_one_pos). subst z.
    apply Bool.andb_false_iff in E. lia.
Qed.

Lemma narrow_fault_at ty' es' lo hi val f narrow j raw z0 :
  In (ty', es', narrow, f) narrowings -> 0 <= j < 6 ->
  sample_word st_floats (hc_hdr 0 6 1 1 4 BIP) BIP 4 0 j 0 = Some raw ->
  sf_num (fl_of_bits raw) = Some (z0 * 2 ^ 1074) ->
  val (narrow (if (-2147483648 <=? z0) && (z0 <=? 2147483647) then z0 else -2147483648) mod 256 ^ es') <> clamp lo hi z0 ->
  exists e s p m l i j k x y z p' s' m',
    env_ok e /\ heap_ok s /\ cube s p m l 4 /\ hm_type m = 4
    /\ f p e s = Ret p' s' /\ hm_at s' p' = Some m' /\ in_cube m i j k
    /\ sample_word s m l 4 i j k = Some x /\ sample_word s' m' l es' i j k = Some y
    /\ rounds_to x z /\ val y <> clamp lo hi z.
Proof.
  intros Hin Hj Hx Hv Hne. destruct st_floats_ok as (Hs & HC & _).
  destruct (narrow_ok ex_env st_floats (Some 0%nat) (hc_hdr 0 6 1 1 4 BIP) BIP ty' es' narrow f ex_env_ok Hs Hin HC eq_refl)
    as (p' & s' & Hrun & (m' & HC' & _ & _ & _ & _ & _ & _ & _ & Hel & _)).
  assert (Hi : in_cube (hc_hdr 0 6 1 1 4 BIP) 0 j 0) by (unfold in_cube; cbn; lia).
  destruct (Hel 0 j 0 Hi) as (x & y & Hx' & Hy & z & Hz & Hyz).
  rewrite Hx in Hx'. injection Hx' as <-. pose proof (stored_exact _ _ _ Hv Hz) as Ez.
  exists ex_env, st_floats, (Some 0%nat), (hc_hdr 0 6 1 1 4 BIP), BIP, 0, j, 0, raw, y, z0, p', s', m'.
  split; [exact ex_env_ok|]. split; [exact Hs|]. split; [exact HC|]. split; [reflexivity|].
  split; [exact Hrun|]. split; [apply HC'|]. split; [exact Hi|]. split; [exact Hx|]. split; [exact Hy|].
  split; [apply exact_rounds; exact Hv|]. rewrite Hyz, Ez. exact Hne.
Qed.

Lemma narrow_refuted ty' es' lo hi val f : In (ty', es', lo, hi, val, f) narrow_faults ->
  exists e s p m l i j k x y z p' s' m',
    env_ok e /\ heap_ok s /\ cube s p m l 4 /\ hm_type m = 4
    /\ f p e s = Ret p' s' /\ hm_at s' p' = Some m' /\ in_cube m i j k
    /\ sample_word s m l 4 i j k = Some x /\ sample_word s' m' l es' i j k = Some y
    /\ rounds_to x z /\ val y <> clamp lo hi z.
Proof.
  intros H. cbn [narrow_faults In] in H.
  destruct H as [E|[E|[E|[E|[E|[E|[]]]]]]]; injection E as <- <- <- <- <- <-.
  - apply narrow_fault_at with (ty' := 1) (narrow := (clamp 0 255)) (j := 4) (raw := 1328730206) (z0 := 3000000000); [cbn; tauto|lia|reflexivity|vm_compute; reflexivity|vm_compute; discriminate].
  - apply narrow_fault_at with (ty' := 1) (narrow := fun z => if z >? 127 then 128 else Z.max (-127) z) (j := 1) (raw := 3271557120) (z0 := (-128)); [cbn; tauto|lia|reflexivity|vm_compute; reflexivity|vm_compute; discriminate].
  - apply narrow_fault_at with (ty' := 2) (narrow := fun z => z) (j := 2) (raw := 1193033728) (z0 := 40000); [cbn; tauto|lia|reflexivity|vm_compute; reflexivity|vm_compute; discriminate].
  - apply narrow_fault_at with (ty' := 3) (narrow := fun z => z) (j := 4) (raw := 1328730206) (z0 := 3000000000); [cbn; tauto|lia|reflexivity|vm_compute; reflexivity|vm_compute; discriminate].
  - apply narrow_fault_at with (ty' := 12) (narrow := (Z.max 0)) (j := 3) (raw := 1200142336) (z0 := 70000); [cbn; tauto|lia|reflexivity|vm_compute; reflexivity|vm_compute; discriminate].
  - apply narrow_fault_at with (ty' := 13) (narrow := (Z.max 0)) (j := 4) (raw := 1328730206) (z0 := 3000000000); [cbn; tauto|lia|reflexivity|vm_compute; reflexivity|vm_compute; discriminate].
Qed.

Lemma sm_uchar_refuted :
  exists e s p m i j k x y z p' s' m',
    env_ok e /\ heap_ok s /\ image s p m 4 /\ sm_type m = 4
    /\ simple_mat_float2uchar p e s = Ret p' s' /\ sm_at s' p' = Some m' /\ in_image m i j k
    /\ pixel_word s m 4 i j k = Some x /\ pixel_word s' m' 1 i j k = Some y
    /\ rounds_to x z /\ z = -5 /\ y = 251.
Proof.
  destruct st_floats_ok as (Hs & _ & IM).
  destruct (sm_uchar_run ex_env st_floats (Some 3%nat) (im_hdr 3 1 6 4 1 4) ex_env_ok Hs IM eq_refl)
    as (p' & s' & Hrun & (m' & IM' & _ & _ & _ & _ & _ & _ & Hel & _)).
  assert (Hin : in_image (im_hdr 3 1 6 4 1 4) 0 5 0) by (unfold in_image; cbn; lia).
  destruct (Hel 0 5 0 Hin) as (x & y & Hx & Hy & z & Hz & Hyz).
  assert (Ex : pixel_word st_floats (im_hdr 3 1 6 4 1 4) 4 0 5 0 = Some 3231711232) by reflexivity.
  rewrite Ex in Hx. injection Hx as <-.
  assert (Hv : sf_num (fl_of_bits 3231711232) = Some (-5 * 2 ^ 1074)) by (vm_compute; reflexivity).
  pose proof (stored_exact _ _ _ Hv Hz) as Ez.
  exists ex_env, st_floats, (Some 3%nat), (im_hdr 3 1 6 4 1 4), 0, 5, 0, 3231711232, y, (-5), p', s', m'.
  split; [exact ex_env_ok|]. split; [exact Hs|]. split; [exact IM|]. split; [reflexivity|].
  split; [exact Hrun|]. split; [apply IM'|]. split; [exact Hin|]. split; [exact Ex|]. split; [exact Hy|].
  split; [apply exact_rounds; exact Hv|]. split; [reflexivity|]. rewrite Hyz, Ez. reflexivity.
Qed.

(** ROUND has no correct value outside the ints. *)
Lemma round_refuted : exists x n z, db_ok x /\ sf_num x = Some n /\ nearest_even n sf_one z
  /\ HYPERCV_ROUND x <> z.
Proof.
  exists (db_of_Z 3000000000). destruct (db_of_Z_ok 3000000000) as [V N]; [lia|].
  exists (3000000000 * sf_one), 3000000000. split; [exact V|]. split; [exact N|]. split.
  - pose proof sf_one_pos. unfold nearest_even. rewrite Z.sub_diag. cbn [Z.abs]. split; lia.
  - vm_compute. discriminate.
Qed.

(** An 8-bit cube and a 16-bit cube. *)
Definition st_wide : st :=
  mkSt (hc_objs 0 2 3 2 1 1 BIL (fun i => 21 * i) (fun i => 100 + i)
        ++ hc_objs 3 2 1 2 12 2 BSQ (fun i => 31 * i + 5) (fun i => i)) [].
Lemma st_wide_ok : heap_ok st_wide /\ cube st_wide (Some 0%nat) (hc_hdr 0 2 3 2 1 BIL) BIL 1
  /\ cube st_wide (Some 3%nat) (hc_hdr 3 2 1 2 12 BSQ) BSQ 2.
Proof. split; [ex_heap_tac|split; ex_cube_tac]. Qed.
