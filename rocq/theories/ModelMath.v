(** * Model: /repo/modules/process/src/c_src/mathprocess.c. *)
From Verif Require Import Base ModelFloat.
From Coq Require Import Floats.SpecFloat.
Open Scope Z_scope.

(** A signed 64-bit result; overflow is undefined. *)
Definition long_ (z : Z) : M Z :=
  if (-9223372036854775808 <=? z) && (z <=? 9223372036854775807) then ret z else fun _ _ => UB.

(** mathprocess.c 9: hypercv_factorial_tab (the last entry is that of 11!). *)
Definition hypercv_factorial_tab : list Z :=
  [1; 1; 2; 6; 24; 120; 720; 5040; 40320; 362880; 39916800].

(** mathprocess.c 145-160: hypercv_factorial. *)
Definition hypercv_factorial (n : Z) : M Z :=
  if n <? 0 then ret (-1)
  else if n <=? 10 then ret (nth (Z.to_nat n) hypercv_factorial_tab 0)
  else forS 2 (n + 1) (fun i m => long_ (m * i)) 1.

(** mathprocess.c 122-142: sort_array_down_float.  Moving a float moves its
    bits; the loop variable [sorted] stands for the break. *)
Definition sort_array_down_float (a : ptr) (n : Z) : M unit :=
  n1 <- ev (n - ci 1)%C ;;
  forS 0 n1 (fun i (sorted : bool) =>
    if sorted then ret true
    else
      m <- ev (n - i - ci 1)%C ;;
      f <- forS 0 m (fun j (f : Z) =>
        x <- loadle a (4 * j) 4 ;;
        y <- loadle a (4 * (j + 1)) 4 ;;
        if SFltb (fl_of_bits x) (fl_of_bits y) then
          storele a (4 * j) 4 y ;;;
          storele a (4 * (j + 1)) 4 x ;;;
          ret 0
        else ret f) 1 ;;
      ret (f =? 1)) false ;;;
  ret tt.
