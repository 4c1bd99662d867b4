(** * Fourier transforms: concrete states. *)
From Verif Require Import Base ModelFloat ModelFourier SpecBase SpecNum SpecMatrix SpecFourier.
From Verif Require Import Fixtures Fixtures2 ProofEx ProofEx6 ProofFloat ProofFloat2 ProofFourier3.
From Coq Require Import List Lia Floats.SpecFloat ZifyBool.
Import ListNotations.
Open Scope Z_scope.

(** Functions that are exact at zero and at the odd multiples of pi met below. *)
Definition ex_cos (x : sf) : sf := match x with S754_zero _ => db_of_Z 1 | _ => db_of_Z (-1) end.
Definition ex_sin (x : sf) : sf := db_of_Z 0.
Lemma ex_trig : trig_like ex_cos ex_sin.
Proof.
  intros x a V N. destruct (num_zero 53 1024 (db_of_Z 0) eq_refl ltac:(unfold emin; lia) eq_refl) as [b _].
  assert (V1 : db_ok (db_of_Z 1) /\ sf_num (db_of_Z 1) = Some sf_one) by (split; vm_compute; reflexivity).
  assert (V2 : db_ok (db_of_Z (-1)) /\ sf_num (db_of_Z (-1)) = Some (- sf_one)) by (split; vm_compute; reflexivity).
  assert (V3 : db_ok (db_of_Z 0) /\ sf_num (db_of_Z 0) = Some 0) by (split; vm_compute; reflexivity).
  unfold ex_sin. split; [destruct x; cbn [ex_cos]; tauto|]. split; [tauto|]. split; [destruct x; cbn [ex_cos]; destruct V1, V2; eauto|].
  split; [destruct V3; eauto|]. intros ->. split; [|tauto].
  destruct (num_zero 53 1024 x V ltac:(unfold emin; lia) N) as [s ->]. cbn [ex_cos]. tauto.
Qed.

(** A 2 x 2 image with the single point 10, two float matrices and a result. *)
Definition st_fourier : st :=
  mkSt (im_objs 0 2 2 1 1 1 (wordsn 1 [10; 0; 0; 0]) ++ im_objs 2 2 2 4 1 4 (wordsn 4 [0; 0; 0; 0])
    ++ im_objs 4 2 2 4 1 4 (wordsn 4 [0; 0; 0; 0]) ++ im_objs 6 2 2 1 1 1 (wordsn 1 [0; 0; 0; 0])) [].
Definition fourier_P (x y : Z) : Z := if (x =? 0) && (y =? 0) then 10 else 0.

Ltac sheet_tac :=
  split; [reflexivity|]; do 3 (split; [reflexivity|]); do 2 (split; [lia|]); split; [lia|];
  let i := fresh in let j := fresh in let Hi := fresh in let Hj := fresh in intros i j Hi Hj;
  assert (i = 0 \/ i = 1) as [-> | ->] by lia; assert (j = 0 \/ j = 1) as [-> | ->] by lia; vm_compute; reflexivity.
Lemma st_fourier_ok :
  sheet st_fourier (Some 0%nat) (im_hdr 0 2 2 1 1 1) 1 1 2 2 fourier_P
  /\ sheet st_fourier (Some 2%nat) (im_hdr 2 2 2 4 1 4) 4 4 2 2 (fun _ _ => 0)
  /\ sheet st_fourier (Some 4%nat) (im_hdr 4 2 2 4 1 4) 4 4 2 2 (fun _ _ => 0)
  /\ sheet st_fourier (Some 6%nat) (im_hdr 6 2 2 1 1 1) 1 1 2 2 (fun _ _ => 0)
  /\ one_point fourier_P 2 2 10 /\ sumz 2 (fun x => sumz 2 (fourier_P x)) = 10.
Proof.
  split; [sheet_tac|]. split; [sheet_tac|]. split; [sheet_tac|]. split; [sheet_tac|]. split; [intros x y _ _; reflexivity|reflexivity].
Qed.

(** The same with a float image. *)
Definition st_fourier_float : st :=
  mkSt (im_objs 0 2 2 4 1 4 (wordsn 4 [0; 0; 0; 0]) ++ im_objs 2 2 2 4 1 4 (wordsn 4 [0; 0; 0; 0])
    ++ im_objs 4 2 2 4 1 4 (wordsn 4 [0; 0; 0; 0])) [].
Lemma st_fourier_float_ok :
  sheet st_fourier_float (Some 0%nat) (im_hdr 0 2 2 4 1 4) 4 4 2 2 (fun _ _ => 0)
  /\ sheet st_fourier_float (Some 2%nat) (im_hdr 2 2 2 4 1 4) 4 4 2 2 (fun _ _ => 0)
  /\ sheet st_fourier_float (Some 4%nat) (im_hdr 4 2 2 4 1 4) 4 4 2 2 (fun _ _ => 0).
Proof. split; [sheet_tac|]. split; sheet_tac. Qed.

(** Running there and back: 10 comes back as 20. *)
Lemma fourier_runs : exists s1 s2, hypercv_dft ex_cos ex_sin (Some 0%nat) (Some 2%nat) (Some 4%nat) ex_env st_fourier = Ret tt s1
  /\ hypercv_idft ex_cos ex_sin (Some 2%nat) (Some 4%nat) (Some 6%nat) ex_env s1 = Ret tt s2
  /\ byte_at s2 (Some 7%nat) 0 = Some 20.
Proof.
  assert (E : match hypercv_dft ex_cos ex_sin (Some 0%nat) (Some 2%nat) (Some 4%nat) ex_env st_fourier with
    | Ret _ s1 => match hypercv_idft ex_cos ex_sin (Some 2%nat) (Some 4%nat) (Some 6%nat) ex_env s1 with
                  | Ret _ s2 => match byte_at s2 (Some 7%nat) 0 with Some v => v =? 20 | None => false end
                  | _ => false end
    | _ => false end = true) by (vm_compute; reflexivity).
  destruct (hypercv_dft _ _ _ _ _ _ _) as [[] s1| | |]; try discriminate E.
  exists s1. destruct (hypercv_idft _ _ _ _ _ _ _) as [[] s2| | |]; try discriminate E.
  exists s2. split; [reflexivity|]. split; [reflexivity|]. destruct (byte_at s2 _ _) as [v|]; [|discriminate E]. f_equal. lia.
Qed.
