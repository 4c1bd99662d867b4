(** * Concrete states used by the examples beside the theorems. *)
From Verif Require Import Base SpecBase.
Open Scope Z_scope.

(** An allocator handing out addresses 4096, 69632, ... (all 0 mod 64), memory
    filled with 165. *)
Definition ex_env : env := mkEnv (fun k => 4096 + (Z.of_nat k mod 1000) * 65536) (fun _ _ => 165).
(** The same with addresses congruent to 48 mod 64. *)
Definition ex_env48 : env := mkEnv (fun k => 4144 + (Z.of_nat k mod 1000) * 65536) (fun _ _ => 165).

(** n readable bytes from the start of p. *)
Definition dump (s : st) (p : ptr) (n : nat) : list (option Z) :=
  map (fun i => byte_at s p (Z.of_nat i)) (seq 0 n).

(** A cube with 2 samples, 1 line, 3 bands of 16-bit data; data bytes are
    0,1,2,...; wavelength bytes 100,101,... *)
Definition ex_hdr (l : layout) : hmat :=
  mkHM 2 1 3 2 (tag_of l) [7; 0] (Some 1%nat) (Some 2%nat).
Definition ex_cube (l : layout) : st :=
  mkSt [ mkObj 4096 300 0 true (CHM (ex_hdr l));
         mkObj 4160 12 0 true (CBytes (fun i => i));
         mkObj 4224 12 0 true (CBytes (fun i => 100 + i)) ] [].

(** A 2 x 3 three-channel 8-bit image. *)
Definition ex_im_hdr : smat := mkSM 2 3 1 3 1 (Some 1%nat).
Definition ex_image : st :=
  mkSt [ mkObj 4096 200 0 true (CSM ex_im_hdr);
         mkObj 4160 18 0 true (CBytes (fun i => 10 * i)) ] [].
