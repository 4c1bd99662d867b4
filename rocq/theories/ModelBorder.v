(** * Model: border extrapolation and padding
    (/repo/modules/core/include/c_include/type.h,
     /repo/modules/process/src/c_src/filter.c). *)
From Verif Require Import Base ModelCore.
Open Scope Z_scope.

(** type.h 82-87: mode numbers. *)
Definition BORDER_CONSTANT : Z := 0.
Definition BORDER_REPLICATE : Z := 1.
Definition BORDER_REFLECT : Z := 2.
Definition BORDER_WRAP : Z := 3.
Definition BORDER_REFLECT_101 : Z := 4.

Definition border_mode (ty : Z) : bool :=
  (ty =? BORDER_REFLECT) || (ty =? BORDER_REFLECT_101) || (ty =? BORDER_REPLICATE)
  || (ty =? BORDER_WRAP) || (ty =? BORDER_CONSTANT).

(** type.h 164-171: one pass through the body of the do-while loop. *)
Definition reflect_step (index len delta : Z) : cint :=
  if index <? 0 then (0 - ci index - 1 + ci delta)%C
  else (len - 1 - (index - len) - delta)%C.

(** type.h 164-171: do { .. } while ((unsigned)index >= (unsigned)len). *)
Fixpoint reflect_loop (fuel : nat) (index len delta : Z) : M Z :=
  match fuel with
  | O => fuel_
  | S fuel' =>
      index' <- ev (reflect_step index len delta) ;;
      if u32 index' >=? u32 len then reflect_loop fuel' index' len delta else ret index'
  end.

(** type.h 138-189: hypercv_border_Interpolate.  [fuel] bounds the passes of the
    do-while loop. *)
Definition border_Interpolate_fuel (fuel : nat) (p len border_type : Z) : M Z :=
  assert (len >=? 0) ;;;
  assert (border_mode border_type) ;;;
  let index := p in
  if u32 index <? u32 len then ret index
  else if border_type =? BORDER_REPLICATE then
    if index <? 0 then ret 0 else ev (len - 1)%C
  else if (border_type =? BORDER_REFLECT) || (border_type =? BORDER_REFLECT_101) then
    if len =? 1 then ret 0
    else reflect_loop fuel index len (if border_type =? BORDER_REFLECT_101 then 1 else 0)
  else if border_type =? BORDER_WRAP then
    index <- (if index <? 0 then ev (index - (index - len + 1) / len * len)%C else ret index) ;;
    if index >=? len then ev (crem index len) else ret index
  else ret 1.

(** Enough fuel for every run that terminates without overflow (see
    ProofBorder). *)
Definition hypercv_border_Interpolate (p len border_type : Z) : M Z :=
  border_Interpolate_fuel (Z.to_nat (Z.abs p) + 2) p len border_type.

(** filter.c 40-69: hypercv_make_const_border. *)
Definition hypercv_make_const_border (src dst : ptr)
    (top bottom left right border_type value : Z) : M unit :=
  assert (nonnull src) ;;;
  ms <- sget src ;;
  md <- sget dst ;;
  let src_rows := sm_rows ms in
  let src_cols := sm_cols ms in
  let dst_rows := sm_rows md in
  let dst_cols := sm_cols md in
  let channels := sm_chan ms in
  for_ 0 dst_rows (fun i =>
    for_ 0 dst_cols (fun j =>
      it <- ev (i - top)%C ;;
      jl <- ev (j - left)%C ;;
      if (it <? 0) || (it >=? src_rows) || (jl <? 0) || (jl >=? src_cols) then
        for_ 0 channels (fun m =>
          d <- ev (i * dst_cols * channels + j * channels + m)%C ;;
          store8 (sm_data md) d value)
      else
        for_ 0 channels (fun m =>
          d <- ev (i * dst_cols * channels + j * channels + m)%C ;;
          x <- ev ((i - top) * src_cols * channels + (j - left) * channels + m)%C ;;
          v <- load8 (sm_data ms) x ;;
          store8 (sm_data md) d v))).

(** filter.c 504-553: hypercv_copy_make_border. *)
Definition hypercv_copy_make_border (src : ptr)
    (top bottom left right border_type value : Z) : M ptr :=
  assert (nonnull src) ;;;
  assert ((left >=? 0) && (right >=? 0) && (top >=? 0) && (bottom >=? 0)) ;;;
  assert (border_mode border_type) ;;;
  if (top =? 0) && (left =? 0) && (bottom =? 0) && (right =? 0) then simple_mat_copy src
  else
    ms <- sget src ;;
    r <- ev (sm_rows ms + top + bottom)%C ;;
    c <- ev (sm_cols ms + left + right)%C ;;
    dst <- create_simple_mat r c (sm_type ms) (sm_chan ms) ;;
    if border_type =? BORDER_CONSTANT then
      hypercv_make_const_border src dst top bottom left right border_type value ;;;
      ret dst
    else
      md <- sget dst ;;
      let dst_rows := sm_rows md in
      let dst_cols := sm_cols md in
      let channels := sm_chan md in
      let src_rows := sm_rows ms in
      let src_cols := sm_cols ms in
      for_ 0 dst_rows (fun i =>
        for_ 0 dst_cols (fun j =>
          jl <- ev (j - left)%C ;;
          index_j <- hypercv_border_Interpolate jl src_cols border_type ;;
          it <- ev (i - top)%C ;;
          index_i <- hypercv_border_Interpolate it src_rows border_type ;;
          for_ 0 channels (fun m =>
            d <- ev (i * dst_cols * channels + j * channels + m)%C ;;
            x <- ev (index_i * src_cols * channels + index_j * channels + m)%C ;;
            v <- load8 (sm_data ms) x ;;
            store8 (sm_data md) d v))) ;;;
      ret dst.
