(** * Principal components: concrete states. *)
From Verif Require Import Base ModelFloat ModelPca SpecBase SpecNum SpecMatrix SpecCxx SpecPca.
From Verif Require Import Fixtures Fixtures2 ProofEx ProofEx6 ProofPca.
From Coq Require Import List Lia Floats.SpecFloat ZifyBool.
Import ListNotations.
Open Scope Z_scope.

(** Two pixels of two bands, their means, and a zero matrix. *)
Definition st_cov (x : list Z) (mean : list Z) : st :=
  mkSt (im_objs 0 2 2 4 1 4 (wordsn 4 (fw x)) ++ im_objs 2 1 2 4 1 4 (wordsn 4 (fw mean)) ++ im_objs 4 2 2 4 1 4 (wordsn 4 [0; 0; 0; 0])) [].
Definition table2 (l : list Z) (i j : Z) : Z := nth (Z.to_nat (i * 2 + j)) l 0.
Definition column (l : list Z) (i : Z) : Z := nth (Z.to_nat i) l 0.
Ltac two_tac := let i := fresh in let j := fresh in let Hi := fresh in let Hj := fresh in intros i j Hi Hj;
  assert (i = 0 \/ i = 1) as [-> | ->] by lia; try lia; assert (j = 0 \/ j = 1) as [-> | ->] by lia; try lia; vm_compute; reflexivity.

Lemma st_cov_ok : env_ok ex_env /\ heap_ok (st_cov [0; 2; 0; 2] [1; 1]) /\ e_addr ex_env (List.length (objs (st_cov [0; 2; 0; 2] [1; 1]))) mod 64 <> 48
  /\ pixels_at (st_cov [0; 2; 0; 2] [1; 1]) (Some 0%nat) (im_hdr 0 2 2 4 1 4) 2 2 (table2 (fw [0; 2; 0; 2]))
  /\ sm_at (st_cov [0; 2; 0; 2] [1; 1]) (Some 2%nat) = Some (im_hdr 2 1 2 4 1 4)
  /\ matrix (st_cov [0; 2; 0; 2] [1; 1]) (Some 3%nat) 4 1 2 (fun _ => column (fw [1; 1]))
  /\ sm_at (st_cov [0; 2; 0; 2] [1; 1]) (Some 4%nat) = Some (im_hdr 4 2 2 4 1 4)
  /\ matrix (st_cov [0; 2; 0; 2] [1; 1]) (Some 5%nat) 4 2 2 (fun _ _ => 0)
  /\ (forall t j, 0 <= t < 2 -> 0 <= j < 2 -> float_int (table2 (fw [0; 2; 0; 2]) t j) (table2 [0; 2; 0; 2] t j)
        /\ float_int (column (fw [1; 1]) t) (column [1; 1] t) /\ Z.abs (table2 [0; 2; 0; 2] t j - column [1; 1] t) <= 1).
Proof.
  split; [exact ex_env_ok|]. split; [intros k o H; do 6 (destruct k as [|k]; [injection H as <-; cbn; lia|]); destruct k; discriminate H|].
  split; [vm_compute; discriminate|]. split; [split; [ex_image_tac|]; do 4 (split; [reflexivity|]); two_tac|].
  split; [reflexivity|]. split; [two_tac|]. split; [reflexivity|]. split; [two_tac|].
  intros i j Hi Hj. assert (i = 0 \/ i = 1) as [-> | ->] by lia; assert (j = 0 \/ j = 1) as [-> | ->] by lia; (split; [reflexivity|]; split; [reflexivity|vm_compute; discriminate]).
Qed.

(** Two bands that are constant: their covariance is 0, the matrix is not. *)
Theorem cov_constant : exists e s x mx mean mm res mr X X' s' V, env_ok e /\ heap_ok s /\ pixels_at s x mx 2 2 X
  /\ (forall t j, 0 <= t < 2 -> 0 <= j < 2 -> float_int (X t j) (X' t j)) /\ (forall i j, 0 <= i < 2 -> 0 <= j < 2 -> true_covariance 2 X' i j = 0)
  /\ sm_at s mean = Some mm /\ matrix s (sm_data mm) 4 1 2 (fun _ _ => bits_of_fl (fl_of_Z 1)) /\ (forall t, 0 <= t < 2 -> sumz 2 (X' t) = 2)
  /\ sm_at s res = Some mr /\ matrix s (sm_data mr) 4 2 2 (fun _ _ => 0)
  /\ cal_covariance_matrix x mean res e s = Ret tt s' /\ matrix s' (sm_data mr) 4 2 2 V /\ float_int (V 0 0) 2 /\ float_int (V 0 1) (-2).
Proof.
  destruct st_cov_ok as (He & Hs & Ha & PX & Hm & MM & Hr & MR & HI).
  destruct (cov_whole ex_env _ _ _ _ _ _ _ 2 2 _ _ _ _ 1 He Hs Ha PX Hm eq_refl MM Hr MR ltac:(lia) ltac:(discriminate) ltac:(discriminate) HI ltac:(lia)) as (s' & V & E & MV & HV).
  do 8 eexists. exists (table2 (fw [0; 2; 0; 2])), (table2 [0; 2; 0; 2]), s', V. split; [exact He|]. split; [exact Hs|]. split; [exact PX|].
  split; [intros t j Ht Hj; exact (proj1 (HI t j Ht Hj))|]. split; [two_tac|]. split; [exact Hm|]. split; [two_tac|].
  split; [intros t Ht; assert (t = 0 \/ t = 1) as [-> | ->] by lia; reflexivity|].
  split; [exact Hr|]. split; [exact MR|]. split; [exact E|]. split; [exact MV|].
  split; [exact (HV 0 0 ltac:(lia) ltac:(lia))|exact (HV 0 1 ltac:(lia) ltac:(lia))].
Qed.

(** Whole runs: a cube and a cube for the result. *)
Definition st_pca (data out : list Z) : st :=
  mkSt (hc_objs 0 2 1 2 4 4 BIP (wordsn 4 (fw data)) (fun _ => 0) ++ hc_objs 3 2 1 2 4 4 BIP (wordsn 4 (fw out)) (fun _ => 0)) [].
Definition live_new (n : nat) (s : st) : nat := List.length (filter (fun o => o_live o) (skipn n (objs s))).
Lemma st_pca_ok data out : env_ok ex_env /\ heap_ok (st_pca data out) /\ cube (st_pca data out) (Some 0%nat) (hc_hdr 0 2 1 2 4 BIP) BIP 4 /\ cube (st_pca data out) (Some 3%nat) (hc_hdr 3 2 1 2 4 BIP) BIP 4.
Proof.
  split; [exact ex_env_ok|]. split; [intros k o H; do 6 (destruct k as [|k]; [injection H as <-; cbn; lia|]); destruct k; discriminate H|]. split; ex_cube_tac.
Qed.
(** Five blocks are left after two turns: two of every turn and the eigenvalues. *)
Theorem pca_leak : exists e s p m r mr s', env_ok e /\ heap_ok s /\ cube s p m BIP 4 /\ cube s r mr BIP 4
  /\ hyper_mat_pca p r 2 e s = Ret tt s' /\ live_new (List.length (objs s)) s' = 5%nat.
Proof.
  destruct (st_pca_ok [0; 2; 4; 2] [0; 0; 0; 0]) as (A & B & C & D). do 7 eexists. split; [exact A|]. split; [exact B|]. split; [exact C|]. split; [exact D|].
  split; [vm_compute; reflexivity|vm_compute; reflexivity].
Qed.
(** What the result held before is added to it. *)
Definition pca_first (out : list Z) : option Z :=
  match hyper_mat_pca (Some 0%nat) (Some 3%nat) 2 ex_env (st_pca [0; 2; 4; 2] out) with Ret tt s => word_at s (Some 4%nat) 0 4 | _ => None end.
Theorem pca_added : exists a b, pca_first [0; 0; 0; 0] = Some a /\ pca_first [1; 0; 0; 0] = Some b /\ a <> b.
Proof. do 2 eexists. split; [vm_compute; reflexivity|]. split; [vm_compute; reflexivity|discriminate]. Qed.
(** A cube of bytes. *)
Definition st_narrow : st := mkSt (hc_objs 0 2 1 2 1 1 BIP (wordsn 1 [1; 2; 3; 4]) (fun _ => 0)) [].
Lemma st_narrow_ok : env_ok ex_env /\ heap_ok st_narrow /\ cube st_narrow (Some 0%nat) (hc_hdr 0 2 1 2 1 BIP) BIP 1 /\ ~ readable st_narrow (Some 1%nat) (2 * 1 * 2 * 4).
Proof.
  split; [exact ex_env_ok|]. split; [intros k o H; do 3 (destruct k as [|k]; [injection H as <-; cbn; lia|]); destruct k; discriminate H|]. split; [ex_cube_tac|].
  intros (k & n & d & H & E & Hn). injection H as <-. injection E as <- _. lia.
Qed.
