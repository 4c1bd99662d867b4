(** * Vocabulary of the specifications: observing the state, data types,
    cube layouts.  Written without reference to the modelled functions. *)
From Verif Require Import Base.
From Coq Require Import String.

(** ** Assumptions on the outside world *)

(** malloc returns 16-byte aligned non-null user-space addresses. *)
Definition env_ok (e : env) : Prop :=
  forall k, 0 < e_addr e k < 2 ^ 46 /\ e_addr e k mod 16 = 0.

(** Every object belongs to a chunk that exists. *)
Definition heap_ok (s : st) : Prop :=
  forall i o, nth_error (objs s) i = Some o -> (o_root o < List.length (objs s))%nat.

(** ** Observations *)

(** The value of byte i of the array p points to; None when that is not a
    readable location. *)
Definition byte_at (s : st) (p : ptr) (i : Z) : option Z :=
  match bytes_at s p with
  | Some (_, n, d) => if inb i n then Some (d i mod 256) else None
  | None => None
  end.

(** All n bytes from the start of p are readable. *)
Definition readable (s : st) (p : ptr) (n : Z) : Prop :=
  exists q sz d, p = Some q /\ bytes_at s p = Some (q, sz, d) /\ n <= sz.

(** Every object that existed before is exactly as it was. *)
Definition old_unchanged (s s' : st) : Prop :=
  forall k, (k < List.length (objs s))%nat -> nth_error (objs s') k = nth_error (objs s) k.

(** The same, except for the objects in l. *)
Definition unchanged_except (l : list ptr) (s s' : st) : Prop :=
  forall k, (k < List.length (objs s))%nat -> ~ In (Some k) l ->
    nth_error (objs s') k = nth_error (objs s) k.

(** p refers to an object that did not exist in s. *)
Definition fresh_in (s : st) (p : ptr) : Prop :=
  exists k, p = Some k /\ (List.length (objs s) <= k)%nat.

(** ** Data types (ENVI codes used by the library) and their sizes *)
Definition type_size (ty : Z) : option Z :=
  if ty =? 1 then Some 1                              (* byte *)
  else if (ty =? 2) || (ty =? 12) then Some 2         (* 16-bit *)
  else if (ty =? 3) || (ty =? 4) || (ty =? 13) then Some 4   (* 32-bit int, float *)
  else if (ty =? 5) || (ty =? 14) || (ty =? 15) then Some 8  (* double, 64-bit *)
  else None.

(** ** Cube layouts *)
Inductive layout := BSQ | BIL | BIP.

Definition tag_of (l : layout) : list Z :=
  match l with
  | BSQ => [98; 115; 113]   (* "bsq" *)
  | BIL => [98; 105; 108]   (* "bil" *)
  | BIP => [98; 105; 112]   (* "bip" *)
  end.

(** Position of the sample at line i, sample j, band k in a cube of S samples,
    L lines and B bands. *)
Definition offset (l : layout) (S L B i j k : Z) : Z :=
  match l with
  | BSQ => (k * L + i) * S + j     (* one full image per band *)
  | BIL => (i * B + k) * S + j     (* per line, one row per band *)
  | BIP => (i * S + j) * B + k     (* per pixel, all bands *)
  end.

(** A well-formed cube: header m at p, layout l, element size es, all samples
    and the wavelength table (if there is one) readable, total size an int. *)
Record cube (s : st) (p : ptr) (m : hmat) (l : layout) (es : Z) : Prop := {
  cube_hdr : hm_at s p = Some m;
  cube_tag : hm_il m = tag_of l;
  cube_pad : In 0 (hm_pad m);
  cube_type : type_size (hm_type m) = Some es;
  cube_S : 0 < hm_samples m;
  cube_L : 0 < hm_lines m;
  cube_B : 0 < hm_bands m;
  cube_size : hm_samples m * hm_lines m * hm_bands m * es <= 2147483647;
  cube_wsize : hm_bands m * 4 + 64 <= 2147483647;
  cube_data : readable s (hm_data m) (hm_samples m * hm_lines m * hm_bands m * es);
  cube_wave : hm_wave m = None \/ readable s (hm_wave m) (hm_bands m * 4) }.

(** Byte t of the sample at (line i, sample j, band k). *)
Definition sample_byte (s : st) (m : hmat) (l : layout) (es i j k t : Z) : option Z :=
  byte_at s (hm_data m)
    (offset l (hm_samples m) (hm_lines m) (hm_bands m) i j k * es + t).

(** (i, j, k) is a position of the cube. *)
Definition in_cube (m : hmat) (i j k : Z) : Prop :=
  0 <= i < hm_lines m /\ 0 <= j < hm_samples m /\ 0 <= k < hm_bands m.

(** ** Simple matrices *)

(** A well-formed simple matrix with element size es: header m at p. *)
Record image (s : st) (p : ptr) (m : smat) (es : Z) : Prop := {
  im_hdr : sm_at s p = Some m;
  im_type : type_size (sm_type m) = Some es;
  im_rows : 0 < sm_rows m;
  im_cols : 0 < sm_cols m;
  im_chan : 0 < sm_chan m;
  im_size : sm_rows m * sm_cols m * es * sm_chan m + 96 <= 2147483647;
  im_data : readable s (sm_data m) (sm_rows m * sm_cols m * es * sm_chan m) }.

(** Byte t of channel k of the pixel at row i, column j. *)
Definition pixel_byte (s : st) (m : smat) (es i j k t : Z) : option Z :=
  byte_at s (sm_data m) (((i * sm_cols m + j) * sm_chan m + k) * es + t).

(** Value of channel k of the pixel (i,j) of an 8-bit image. *)
Definition pix (s : st) (m : smat) (i j k : Z) : option Z := pixel_byte s m 1 i j k 0.

Definition in_image (m : smat) (i j k : Z) : Prop :=
  0 <= i < sm_rows m /\ 0 <= j < sm_cols m /\ 0 <= k < sm_chan m.

Definition layout_name (l : layout) : string :=
  match l with BSQ => "bsq" | BIL => "bil" | BIP => "bip" end.
