(** * Concrete states for the filter properties. *)
From Verif Require Import Base ModelFloat ModelCore ModelFilter SpecBase SpecImage SpecImage2 SpecPixel SpecNum SpecMatrix SpecFilter
  Fixtures Fixtures2 ProofEx ProofEx3 ProofEx4 ProofEx6 ProofMatrix ProofFilter ProofGrad.
From Coq Require Import Floats.SpecFloat Lia ZifyBool ZifyNat.
Ltac Zify.zify_post_hook ::= Z.div_mod_to_equations.
Open Scope Z_scope.

(** A 3x3 source of one channel and a 3x3 destination of 4-byte elements of type ty. *)
Definition px33 : list Z := [5; 6; 7; 0; 1; 200; 255; 3; 9].
Definition st_fil (ty : Z) (w : list Z) : st :=
  mkSt (im_objs 0 3 3 1 1 1 (fun i => nth (Z.to_nat i) px33 0) ++ im_objs 2 3 3 ty 1 4 (wordsn 4 w)
        ++ [mkObj 262144 36 4 true (CBytes (wordsn 4 (fw [0; 0; 0; 0; 2; -1; 0; 0; 0])))]) [].
Ltac cells33 := intros i j Hi Hj; cbn [im_hdr sm_rows sm_cols] in *;
  destruct (split3 i Hi) as [->|[->| ->]], (split3 j Hj) as [->|[->| ->]]; vm_compute; reflexivity.
Lemma st_int_ok : image (st_fil 3 []) (Some 0%nat) (im_hdr 0 3 3 1 1 1) 1
  /\ image (st_fil 3 []) (Some 2%nat) (im_hdr 2 3 3 3 1 4) 4
  /\ grey (st_fil 3 []) (im_hdr 0 3 3 1 1 1) (cells 3 px33).
Proof. split; [ex_image_tac|]. split; [ex_image_tac|]. cells33. Qed.

Lemma st_fil_heap : env_ok ex_env /\ heap_ok (st_fil 3 []).
Proof. split; [exact ex_env_ok|ex_heap_tac]. Qed.

Lemma integral_wrong : exists e s src dst ms md P s',
  image s src ms 1 /\ image s dst md 4 /\ sm_rows md = sm_rows ms /\ sm_cols md = sm_cols ms /\ grey s ms P
  /\ hypercv_integral src dst e s = Ret tt s'
  /\ (exists i j w, 0 <= i < sm_rows ms /\ 0 <= j < sm_cols ms
        /\ word_at s' (sm_data md) ((i * sm_cols ms + j) * 4) 4 = Some w /\ w <> block_sum P 0 (i + 1) 0 (j + 1)).
Proof.
  destruct st_int_ok as (A & B & C).
  destruct (integral_exact ex_env _ _ _ _ _ (cells 3 px33) A B eq_refl eq_refl eq_refl eq_refl eq_refl)
    as (s' & E & M & _); [discriminate|exact C|cbn [im_hdr sm_rows sm_cols]; unfold INT_MAX; lia|].
  exists ex_env, (st_fil 3 []), (Some 0%nat), (Some 2%nat), (im_hdr 0 3 3 1 1 1), (im_hdr 2 3 3 3 1 4), (cells 3 px33), s'.
  do 6 (split; [assumption || reflexivity|]).
  exists 0, 1, 6. split; [cbn; lia|]. split; [cbn; lia|]. split; [|vm_compute; discriminate].
  etransitivity; [apply (M 0 1); cbn; lia|]. vm_compute. reflexivity.
Qed.

(** A destination of zeroes (w = []) or not. *)
Lemma st_fil_ok w : image (st_fil 4 w) (Some 0%nat) (im_hdr 0 3 3 1 1 1) 1
  /\ sm_at (st_fil 4 w) (Some 2%nat) = Some (im_hdr 2 3 3 4 1 4)
  /\ colours (st_fil 4 w) (im_hdr 0 3 3 1 1 1) (fun i j _ => cells 3 px33 i j)
  /\ matrix (st_fil 4 w) (Some 4%nat) 4 3 3 (cells 3 (fw [0; 0; 0; 0; 2; -1; 0; 0; 0])).
Proof.
  split; [ex_image_tac|]. split; [reflexivity|]. split.
  - intros i j k (Hi & Hj & Hk). cbn [im_hdr sm_rows sm_cols sm_chan] in *. replace k with 0 by lia. clear Hk.
    destruct (split3 i Hi) as [->|[->| ->]], (split3 j Hj) as [->|[->| ->]]; vm_compute; reflexivity.
  - cells33.
Qed.
Lemma st_fil_zero : matrix (st_fil 4 []) (Some 3%nat) 4 3 3 (fun _ _ => 0).
Proof. cells33. Qed.
Definition ones9 : list Z := fw [1; 1; 1; 1; 1; 1; 1; 1; 1].
Lemma st_fil_ones : matrix (st_fil 4 ones9) (Some 3%nat) 4 3 3 (cells 3 ones9).
Proof. cells33. Qed.

Lemma filter_wrong : exists e s src dst kernel ms md K k W P s',
  image s src ms 1 /\ sm_at s dst = Some md /\ sm_chan ms = 1 /\ colours s ms P
  /\ matrix s (sm_data md) 4 (sm_rows ms) (sm_cols ms) W /\ matrix s kernel 4 3 3 K
  /\ (forall m n, 0 <= m < 3 -> 0 <= n < 3 -> float_int (K m n) (k m n))
  /\ hypercv_filter2D src dst kernel 3 3 (mode_of Replicate) e s = Ret tt s'
  /\ (exists w, word_at s' (sm_data md) 0 4 = Some w
        /\ float_int w 5 /\ weighted_sum 3 3 k (beyond Replicate ms (fun a b => P a b 0)) 0 0 = 4).
Proof.
  destruct (st_fil_ok ones9) as (A & B & C & D). pose proof st_fil_ones as E.
  assert (N1 : sm_data (im_hdr 0 3 3 1 1 1) <> sm_data (im_hdr 2 3 3 4 1 4)) by discriminate.
  assert (N2 : Some 4%nat <> sm_data (im_hdr 2 3 3 4 1 4)) by discriminate.
  assert (N3 : 3 * 3 <= INT_MAX) by (unfold INT_MAX; lia).
  assert (N4 : 3 + 3 <= INT_MAX) by (unfold INT_MAX; lia).
  destruct (filter_exact ex_env (st_fil 4 ones9) (Some 0%nat) (Some 2%nat) (Some 4%nat) (im_hdr 0 3 3 1 1 1) (im_hdr 2 3 3 4 1 4) Replicate 3 3
     (cells 3 (fw [0; 0; 0; 0; 2; -1; 0; 0; 0])) (cells 3 ones9)
     (fun i j _ => cells 3 px33 i j) A B (or_introl eq_refl) C E D N1 N2 eq_refl eq_refl N3 N4 N4) as (s' & R & _ & (W' & M & V) & _).
  exists ex_env, (st_fil 4 ones9), (Some 0%nat), (Some 2%nat), (Some 4%nat), (im_hdr 0 3 3 1 1 1), (im_hdr 2 3 3 4 1 4),
    (cells 3 (fw [0; 0; 0; 0; 2; -1; 0; 0; 0])), (cells 3 [0; 0; 0; 0; 2; -1; 0; 0; 0]), (cells 3 ones9),
    (fun i j _ => cells 3 px33 i j), s'.
  split; [exact A|]. split; [exact B|]. split; [reflexivity|]. split; [exact C|]. split; [exact E|]. split; [exact D|]. split.
  { intros m n Hm Hn. destruct (split3 m Hm) as [->|[->| ->]], (split3 n Hn) as [->|[->| ->]]; vm_compute; reflexivity. }
  split; [exact R|].
  exists (W' 0 0). split; [apply (M 0 0); cbn; lia|]. split; [|vm_compute; reflexivity].
  unfold float_int. specialize (V 0 0 0). cbn [im_hdr sm_rows sm_cols sm_chan] in V.
  change (0 * 1 + 0) with 0 in V. rewrite V by lia. vm_compute. reflexivity.
Qed.

(** Two 3x3 images and a one-row image with its destination. *)
Definition st_grad : st := mkSt (im_objs 0 3 3 1 1 1 (fun i => nth (Z.to_nat i) px33 0) ++ im_objs 2 3 3 1 1 1 (fun _ => 99)) [].
Lemma st_grad_ok : image st_grad (Some 0%nat) (im_hdr 0 3 3 1 1 1) 1 /\ image st_grad (Some 2%nat) (im_hdr 2 3 3 1 1 1) 1
  /\ grey st_grad (im_hdr 0 3 3 1 1 1) (cells 3 px33).
Proof. split; [ex_image_tac|]. split; [ex_image_tac|]. cells33. Qed.
Definition st_row : st := mkSt (im_objs 0 1 3 1 1 1 (fun i => i) ++ im_objs 2 1 3 1 1 1 (fun _ => 99)) [].
Lemma st_row_ok : image st_row (Some 0%nat) (im_hdr 0 1 3 1 1 1) 1 /\ image st_row (Some 2%nat) (im_hdr 2 1 3 1 1 1) 1.
Proof. split; ex_image_tac. Qed.

Lemma blur_wrong : exists e s src dst m, image s src m 1 /\ image s dst m 1
  /\ hypercv_meanblur src dst 3 e s = Exit /\ (forall fuel, hypercv_medianblur fuel src dst 3 e s = Exit).
Proof.
  exists ex_env, st_grad, (Some 0%nat), (Some 0%nat), (im_hdr 0 3 3 1 1 1).
  split; [apply st_grad_ok|]. split; [apply st_grad_ok|].
  split; [apply meanblur_exit; reflexivity|]. intros. apply medianblur_exit. reflexivity.
Qed.
Lemma sobel_wrong : exists e s src dst ms md, image s src ms 1 /\ image s dst md 1 /\ sm_chan ms = 1 /\ sm_chan md = 1
  /\ sm_rows ms = sm_rows md /\ sm_cols ms = sm_cols md /\ hypercv_sobel src dst 10 0 e s = UB.
Proof.
  exists ex_env, st_row, (Some 0%nat), (Some 2%nat), (im_hdr 0 1 3 1 1 1), (im_hdr 2 1 3 1 1 1).
  split; [apply st_row_ok|]. split; [apply st_row_ok|]. do 4 (split; [reflexivity|]).
  eapply sobel_constant_ub; [apply st_row_ok|reflexivity..].
Qed.
Lemma laplacian_wrong : exists e s src dst ms md, image s src ms 1 /\ image s dst md 1 /\ sm_chan ms = 1 /\ sm_chan md = 1
  /\ sm_rows ms = sm_rows md /\ sm_cols ms = sm_cols md /\ hypercv_laplacian src dst 3 0 e s = UB.
Proof.
  exists ex_env, st_row, (Some 0%nat), (Some 2%nat), (im_hdr 0 1 3 1 1 1), (im_hdr 2 1 3 1 1 1).
  split; [apply st_row_ok|]. split; [apply st_row_ok|]. do 4 (split; [reflexivity|]).
  eapply laplacian_constant_ub; [apply st_row_ok|reflexivity..].
Qed.
