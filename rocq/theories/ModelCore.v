(** * Model of the core module: type.h helpers, creation, copying and deletion
    of hyper_mat and simple_mat, structuring elements.
    Source files (all under /repo/modules/core):
    include/c_include/type.h, src/c_src/hypermat.c, src/c_src/simplemat.c,
    src/c_src/struct_2D.c. *)
From Verif Require Import Base.
From Coq Require Import String Ascii.

(** A C string literal: its characters followed by NUL. *)
Fixpoint chars (s : string) : list Z :=
  match s with
  | EmptyString => []
  | String c r => Z.of_nat (nat_of_ascii c) :: chars r
  end.
Definition str (s : string) : list Z := chars s ++ [0].

Definition nonnull (p : ptr) : bool := match p with Some _ => true | None => false end.

(** sizeof of the two structs on LP64 (x86-64): 4 ints + 3 chars + padding +
    2 pointers = 40; 5 ints + padding + 1 pointer = 32; STRUCT_2D: 2 ints and a
    pointer = 16. *)
Definition SIZEOF_HM : Z := 40.
Definition SIZEOF_SM : Z := 32.
Definition SIZEOF_S2 : Z := 16.

(** type.h 17: ALLOC_BYTE_ALIGNMENT, 19-22: BYTE_ALIGNMENT (clearing the low six
    bits of address+63 is rounding down to a multiple of 64). *)
Definition align64 (a : Z) : Z := (a + 63) / 64 * 64.

(** type.h 48-81: get_elemsize. *)
Definition get_elemsize (data_type : Z) : Z :=
  match data_type with
  | 1 => 1
  | 2 => 2
  | 3 => 4
  | 4 => 4
  | 5 => 8
  | 12 => 2
  | 13 => 4
  | 14 => 8
  | 15 => 8
  | _ => -1
  end.

(** ** Strings *)

(** strlen on the memory contents from the pointer on; [None]: no NUL before
    the end of what may be read. *)
Fixpoint cstrlen (l : list Z) : option Z :=
  match l with
  | [] => None
  | c :: r => if c =? 0 then Some 0
              else match cstrlen r with Some n => Some (n + 1) | None => None end
  end.

(** hypermat.c 29-31: the comparison loop. *)
Fixpoint cmp_upto (n : nat) (a b : list Z) : bool :=
  match n with
  | O => true
  | S n' =>
      match a, b with
      | x :: a', y :: b' => if x =? y then cmp_upto n' a' b' else false
      | _, _ => false   (* not reached: n is at most both string lengths *)
      end
  end.

(** hypermat.c 22-35: cmpstr. *)
Definition cmpstr (a b : list Z) : M Z := fun _ s =>
  match cstrlen a, cstrlen b with
  | Some la, Some lb =>
      let len := if la <=? lb then la else lb in
      if (la =? lb) && (len =? 0) then Ret 1 s
      else if cmp_upto (Z.to_nat len) a b then Ret 1 s else Ret 0 s
  | _, _ => UB
  end.

(** cmpstr(mat->interleave, name): the tag is followed by the bytes of the rest
    of the struct. *)
Definition il_cmp (m : hmat) (name : string) : M Z :=
  cmpstr (hm_il m ++ hm_pad m) (str name).

(** ** hyper_mat creation, hypermat.c 155-217 *)

(** The 8 bytes of a pointer value. *)
Fixpoint le_bytes (n : nat) (v : Z) : list Z :=
  match n with O => [] | S n' => v mod 256 :: le_bytes n' (v / 256) end.

(** The struct bytes after the interleave tag: offsets 19..23 are never
    written (stale), then the data pointer. *)
Definition pad_bytes (junk : Z -> Z) (data_addr : Z) : list Z :=
  map (fun i => junk i mod 256) [19; 20; 21; 22; 23] ++ le_bytes 8 data_addr.

(** interleave[0], [1], [2] of the string argument. *)
Definition tag3 (il : list Z) : M (list Z) :=
  match il with
  | a :: b :: c :: _ => ret [a; b; c]
  | _ => ub
  end.

Definition junk_of (p : ptr) : M (Z -> Z) := fun e s =>
  match p with Some k => Ret (e_junk e k) s | None => UB end.

(** hypermat.c 172-217: create_hyper_mat_with_data. *)
Definition create_hyper_mat_with_data (samples lines bands data_type : Z)
    (interleave : list Z) (data wavelength : ptr) : M ptr :=
  assert (samples >? 0) ;;;
  assert (lines >? 0) ;;;
  assert (bands >? 0) ;;;
  let elem_size := get_elemsize data_type in
  mat_data_size <- ev (samples * lines * bands * elem_size)%C ;;
  let wave_data_size := sgn 32 (bands * 4) in
  w64 <- ev (wave_data_size + 64)%C ;;
  let memneeded := SIZEOF_HM + (mat_data_size + 64) + w64 in
  mat <- malloc memneeded ;;
  assert (nonnull mat) ;;;
  base <- addr_of mat ;;
  let address := align64 (base + SIZEOF_HM) in
  d <- carve mat SIZEOF_HM address mat_data_size ;;
  memset d 0 0 mat_data_size ;;;
  let address2 := align64 (address + mat_data_size) in
  w <- carve mat SIZEOF_HM address2 wave_data_size ;;
  memset w 0 0 wave_data_size ;;;
  (if nonnull data then memcpy d 0 data 0 mat_data_size else ret tt) ;;;
  (if nonnull wavelength then memcpy w 0 wavelength 0 wave_data_size else ret tt) ;;;
  tag <- tag3 interleave ;;
  junk <- junk_of mat ;;
  set_header mat (CHM (mkHM samples lines bands data_type tag
                            (pad_bytes junk address) d w)) ;;;
  ret mat.

(** hypermat.c 155-159: create_hyper_mat. *)
Definition create_hyper_mat (samples lines bands data_type : Z) (interleave : list Z) : M ptr :=
  create_hyper_mat_with_data samples lines bands data_type interleave None None.

(** hypermat.c 394-408: hyper_mat_copy.  The test is as in the code: a non-NULL
    argument returns NULL at once. *)
Definition hyper_mat_copy (mat : ptr) : M ptr :=
  if nonnull mat then ret None
  else
    m <- hget mat ;;
    create_hyper_mat_with_data (hm_samples m) (hm_lines m) (hm_bands m) (hm_type m)
      (hm_il m) (hm_data m) (hm_wave m).

(** hypermat.c 442-457: hyper_mat_copy_wavelength. *)
Definition hyper_mat_copy_wavelength (src dst : ptr) : M unit :=
  assert (nonnull src && nonnull dst) ;;;
  ms <- hget src ;;
  md <- hget dst ;;
  assert (hm_bands ms =? hm_bands md) ;;;
  if nonnull (hm_wave ms) then
    memcpy (hm_wave md) 0 (hm_wave ms) 0 (hm_bands ms * 4)
  else ret tt.

(** hypermat.c 415-435: hyper_mat_copy_to. *)
Definition hyper_mat_copy_to (src dst : ptr) : M unit :=
  assert (nonnull src && nonnull dst) ;;;
  ms <- hget src ;;
  md <- hget dst ;;
  let samples := hm_samples ms in
  let lines := hm_lines ms in
  let bands := hm_bands ms in
  let elemsize := get_elemsize (hm_type ms) in
  assert ((hm_samples md =? samples) && (hm_lines md =? lines)
          && (hm_bands md =? bands) && (hm_type ms =? hm_type md)) ;;;
  n <- ev (samples * lines * bands * elemsize)%C ;;
  memcpy (hm_data md) 0 (hm_data ms) 0 n ;;;
  hyper_mat_copy_wavelength src dst ;;;
  set_header dst (CHM (mkHM (hm_samples md) (hm_lines md) (hm_bands md) (hm_type md)
                            (hm_il ms) (hm_pad md) (hm_data md) (hm_wave md))).

(** hypermat.c 490-496: hyper_mat_empty. *)
Definition hyper_mat_empty (mat : ptr) : M Z := ret (if nonnull mat then 0 else 1).

(** hypermat.c 502-509: delete_hyper_mat. *)
Definition delete_hyper_mat (mat : ptr) : M unit :=
  if nonnull mat then free mat else ret tt.

(** ** simple_mat creation and deletion *)

(** simplemat.c 26-61: create_simple_mat_with_data. *)
Definition create_simple_mat_with_data (rows cols data_type channels : Z) (data : ptr) : M ptr :=
  assert ((rows >? 0) && (cols >? 0)) ;;;
  let elem_size := get_elemsize data_type in
  memneeded <- (if nonnull data then ret SIZEOF_SM
                else data_size <- ev (rows * cols * elem_size * channels)%C ;;
                     ev (SIZEOF_SM + (data_size + 64))%C) ;;
  mat <- malloc memneeded ;;
  assert (nonnull mat) ;;;
  d <- (if nonnull data then ret data
        else
          base <- addr_of mat ;;
          let address := align64 (base + SIZEOF_SM) in
          zeroed <- ev (rows * cols * elem_size)%C ;;
          (* the data area: what the size computation reserved for it (and at
             least what memset touches) *)
          area <- ev (rows * cols * elem_size * channels)%C ;;
          d <- carve mat SIZEOF_SM address (Z.max area zeroed) ;;
          memset d 0 0 zeroed ;;;
          ret d) ;;
  set_header mat (CSM (mkSM rows cols data_type channels elem_size d)) ;;;
  ret mat.

(** simplemat.c 11-15: create_simple_mat. *)
Definition create_simple_mat (rows cols data_type channels : Z) : M ptr :=
  create_simple_mat_with_data rows cols data_type channels None.

(** simplemat.c 95-111: simple_mat_copy. *)
Definition simple_mat_copy (mat : ptr) : M ptr :=
  m <- sget mat ;;
  let rows := sm_rows m in
  let cols := sm_cols m in
  let elemsize := get_elemsize (sm_type m) in
  let channels := sm_chan m in
  dst <- create_simple_mat rows cols (sm_type m) channels ;;
  md <- sget dst ;;
  n <- ev (rows * cols * elemsize * channels)%C ;;
  memcpy (sm_data md) 0 (sm_data m) 0 n ;;;
  ret dst.

(** simplemat.c 492-509: delete_simple_mat (addresses are compared as integers). *)
Definition delete_simple_mat (mat : ptr) : M unit :=
  if nonnull mat then
    m <- sget mat ;;
    a <- addr_of mat ;;
    b <- addr_of (sm_data m) ;;
    if a + 64 >=? b then free mat
    else
      free (sm_data m) ;;;
      set_header mat (CSM (mkSM (sm_rows m) (sm_cols m) (sm_type m) (sm_chan m)
                                (sm_esize m) None)) ;;;
      free mat
  else ret tt.

(** ** Structuring elements, struct_2D.c *)

(** struct_2D.c 34-49: create_2D_struct_with_data. *)
Definition create_2D_struct_with_data (width height : Z) (data : ptr) : M ptr :=
  assert ((width >=? 1) && (height >=? 1)) ;;;
  s <- malloc SIZEOF_S2 ;;
  assert (nonnull s) ;;;
  set_header s (CS2 (mkS2 width height data)) ;;;
  ret s.

(** struct_2D.c 14-25: create_2D_struct.  [width * height * sizeof(unsigned char)]
    is int multiplication followed by a conversion to size_t. *)
Definition create_2D_struct (width height : Z) : M ptr :=
  assert ((width >=? 1) && (height >=? 1)) ;;;
  n <- ev (width * height)%C ;;
  data <- malloc n ;;
  for_ 0 n (fun i => store8 data i 1) ;;;
  create_2D_struct_with_data width height data.

(** struct_2D.c 55-62: delete_S_2D. *)
Definition delete_S_2D (s : ptr) : M unit :=
  if nonnull s then free s else ret tt.
