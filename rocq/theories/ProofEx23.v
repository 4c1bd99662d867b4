(** * Shape moments: concrete states. *)
From Coq Require Import Reals.
From Verif Require Import Base ModelFloat ModelShape SpecBase SpecNum SpecMatrix SpecShape.
From Verif Require Import Fixtures Fixtures2 ProofEx ProofEx6 ProofFloat ProofFloat2.
From Coq Require Import List Lia Floats.SpecFloat ZifyBool.
Import ListNotations.
Open Scope Z_scope.

(** A power function that is right for the exponent 2. *)
Definition ex_pow (x y : sf) : sf := db_mul x x.
Lemma ex_pow_ok : (forall x y, db_ok x -> db_ok y -> db_ok (ex_pow x y)) /\ ex_pow (db_of_Z 2) (db_of_Z 2) = db_of_Z 4.
Proof. split; [intros; apply db_mul_ok; assumption|reflexivity]. Qed.

(** A 2 x 3 image, the same shape one row down in a 3 x 3 image, an image with
    one lit pixel, a black image, a 16-bit image and room for seven doubles. *)
Definition st_shape : st :=
  mkSt (im_objs 0 2 3 1 1 1 (wordsn 1 [1; 2; 0; 3; 9; 0]) ++ im_objs 2 3 3 1 1 1 (wordsn 1 [0; 0; 0; 0; 1; 2; 0; 3; 9])
    ++ im_objs 4 2 2 1 1 1 (wordsn 1 [0; 7; 0; 0]) ++ im_objs 6 2 2 1 1 1 (wordsn 1 [0; 0; 0; 0])
    ++ im_objs 8 1 2 2 1 2 (wordsn 1 [1; 2; 3; 4]) ++ [mkObj 40960 56 10 true (CBytes (fun _ => 0))]) [].
Definition grid (c : Z) (l : list Z) (j i : Z) : Z := nth (Z.to_nat (j * c + i)) l 0.

Ltac rows_tac :=
  do 4 (split; [reflexivity|]); do 2 (split; [lia|]); split; [lia|];
  let i := fresh in let j := fresh in let Hi := fresh in let Hj := fresh in intros i j Hi Hj;
  assert (i = 0 \/ i = 1 \/ i = 2) as [-> | [-> | ->]] by lia; try lia;
  assert (j = 0 \/ j = 1 \/ j = 2 \/ j = 3) as [-> | [-> | [-> | ->]]] by lia; try lia; vm_compute; reflexivity.
Lemma st_shape_ok :
  byte_rows st_shape (Some 0%nat) (im_hdr 0 2 3 1 1 1) 2 3 1 (grid 3 [1; 2; 0; 3; 9; 0])
  /\ byte_rows st_shape (Some 2%nat) (im_hdr 2 3 3 1 1 1) 3 3 1 (grid 3 [0; 0; 0; 0; 1; 2; 0; 3; 9])
  /\ byte_rows st_shape (Some 4%nat) (im_hdr 4 2 2 1 1 1) 2 2 1 (grid 2 [0; 7; 0; 0])
  /\ byte_rows st_shape (Some 6%nat) (im_hdr 6 2 2 1 1 1) 2 2 1 (grid 2 [0; 0; 0; 0])
  /\ byte_rows st_shape (Some 8%nat) (im_hdr 8 1 2 2 1 2) 1 2 2 (grid 4 [1; 2; 3; 4])
  /\ readable st_shape (Some 10%nat) 56 /\ small_image 2 3 /\ small_image 3 3 /\ small_image 2 2 /\ small_image 1 2
  /\ weight_of 2 3 (grid 3 [1; 2; 0; 3; 9; 0]) = 15 /\ weight_of 2 2 (grid 2 [0; 7; 0; 0]) = 7 /\ weight_of 1 2 (grid 4 [1; 2; 3; 4]) = 3
  /\ moved (grid 3 [1; 2; 0; 3; 9; 0]) (grid 3 [0; 0; 0; 0; 1; 2; 0; 3; 9]) 2 3 3 3 1 1
  /\ (forall j i, 0 <= j < 2 -> 0 <= i < 2 -> j <> 0 \/ i <> 1 -> grid 2 [0; 7; 0; 0] j i = 0)
  /\ (forall j i, 0 <= j < 2 -> 0 <= i < 2 -> grid 2 [0; 0; 0; 0] j i = 0).
Proof.
  split; [rows_tac|]. split; [rows_tac|]. split; [rows_tac|]. split; [rows_tac|]. split; [rows_tac|].
  split; [exists 10%nat, 56, (fun _ => 0); split; [reflexivity|split; [reflexivity|lia]]|].
  do 4 (split; [vm_compute; discriminate|]). do 3 (split; [reflexivity|]).
  split; [|split].
  - split; [|split]; intros j i Hj Hi; intros;
      assert (j = 0 \/ j = 1 \/ j = 2) as [-> | [-> | ->]] by lia; try lia; assert (i = 0 \/ i = 1 \/ i = 2) as [-> | [-> | ->]] by lia; try lia; reflexivity.
  - intros j i Hj Hi; intros; assert (j = 0 \/ j = 1) as [-> | ->] by lia; assert (i = 0 \/ i = 1) as [-> | ->] by lia; try lia; reflexivity.
  - intros j i Hj Hi; assert (j = 0 \/ j = 1) as [-> | ->] by lia; assert (i = 0 \/ i = 1) as [-> | ->] by lia; reflexivity.
Qed.

(** The shape and its copy compare as 1, the single pixel with itself as NaN,
    and the two shapes as something else. *)
Definition compared (p q : nat) : option sf :=
  match hypercv_match_shapes ex_pow (Some p) (Some q) ex_env st_shape with Ret v _ => Some v | _ => None end.
Lemma shape_runs : compared 0 2 = Some (db_of_Z 1) /\ compared 4 4 = Some S754_nan /\ compared 6 6 = None
  /\ match compared 0 8 with Some v => SFltb v (db_of_Z 1) | None => false end = true.
Proof. vm_compute. repeat split. Qed.
(** The shape moved is not all zero, nor infinite. *)
Lemma shape_finite : forallb is_fin (shape_of ex_pow 2 3 (grid 3 [1; 2; 0; 3; 9; 0])) && existsb is_nonzero (shape_of ex_pow 2 3 (grid 3 [1; 2; 0; 3; 9; 0])) = true.
Proof. vm_compute. reflexivity. Qed.
(** A turn by a right angle and a turn by a smaller one. *)
Lemma turn_angles : (0 * 0 + 1 * 1 = 1)%R /\ (3 / 5 * (3 / 5) + 4 / 5 * (4 / 5) = 1)%R.
Proof. split; field. Qed.
