(** * Model of /repo/modules/process/src/c_src/imageprocess.c *)
From Verif Require Import Base ModelCore.
From Coq Require Import String.
Open Scope Z_scope.

(** imageprocess.c 83-127: bil2bsq. *)
Definition bil2bsq (bil_mat : ptr) : M ptr :=
  assert (nonnull bil_mat) ;;;
  m <- hget bil_mat ;;
  c <- il_cmp m "bsq" ;;
  if c =? 1 then hyper_mat_copy bil_mat else
  c <- il_cmp m "bil" ;;
  assert (c =? 1) ;;;
  let samples := hm_samples m in
  let lines := hm_lines m in
  let bands := hm_bands m in
  let elem_size := get_elemsize (hm_type m) in
  bsq_mat <- create_hyper_mat samples lines bands (hm_type m) (str "bsq") ;;
  m' <- hget bsq_mat ;;
  for_ 0 bands (fun k =>
    for_ 0 lines (fun i =>
      for_ 0 samples (fun j =>
        bil_index <- ev ((i * samples * bands + k * samples + j) * elem_size)%C ;;
        bsq_index <- ev ((k * samples * lines + i * samples + j) * elem_size)%C ;;
        for_ 0 elem_size (fun t =>
          x <- load8 (hm_data m) (u32 (u32 bil_index + t)) ;;
          store8 (hm_data m') (u32 (u32 bsq_index + t)) x)))) ;;;
  (if nonnull (hm_wave m) then memcpy (hm_wave m') 0 (hm_wave m) 0 (bands * 4)
   else ret tt) ;;;
  ret bsq_mat.

(** imageprocess.c 133-177: bil2bip. *)
Definition bil2bip (bil_mat : ptr) : M ptr :=
  assert (nonnull bil_mat) ;;;
  m <- hget bil_mat ;;
  c <- il_cmp m "bip" ;;
  if c =? 1 then hyper_mat_copy bil_mat else
  c <- il_cmp m "bil" ;;
  assert (c =? 1) ;;;
  let samples := hm_samples m in
  let lines := hm_lines m in
  let bands := hm_bands m in
  let elem_size := get_elemsize (hm_type m) in
  bip_mat <- create_hyper_mat samples lines bands (hm_type m) (str "bip") ;;
  m' <- hget bip_mat ;;
  for_ 0 lines (fun i =>
    for_ 0 samples (fun j =>
      for_ 0 bands (fun k =>
        bil_index <- ev ((i * samples * bands + k * samples + j) * elem_size)%C ;;
        bip_index <- ev ((i * samples * bands + j * bands + k) * elem_size)%C ;;
        for_ 0 elem_size (fun t =>
          x <- load8 (hm_data m) (u32 (u32 bil_index + t)) ;;
          store8 (hm_data m') (u32 (u32 bip_index + t)) x)))) ;;;
  (if nonnull (hm_wave m) then memcpy (hm_wave m') 0 (hm_wave m) 0 (bands * 4)
   else ret tt) ;;;
  ret bip_mat.

(** imageprocess.c 183-227: bsq2bil. *)
Definition bsq2bil (bsq_mat : ptr) : M ptr :=
  assert (nonnull bsq_mat) ;;;
  m <- hget bsq_mat ;;
  c <- il_cmp m "bil" ;;
  if c =? 1 then hyper_mat_copy bsq_mat else
  c <- il_cmp m "bsq" ;;
  assert (c =? 1) ;;;
  let samples := hm_samples m in
  let lines := hm_lines m in
  let bands := hm_bands m in
  let elem_size := get_elemsize (hm_type m) in
  bil_mat <- create_hyper_mat samples lines bands (hm_type m) (str "bil") ;;
  m' <- hget bil_mat ;;
  for_ 0 lines (fun i =>
    for_ 0 bands (fun k =>
      for_ 0 samples (fun j =>
        bsq_index <- ev ((k * samples * lines + i * samples + j) * elem_size)%C ;;
        bil_index <- ev ((i * samples * bands + k * samples + j) * elem_size)%C ;;
        for_ 0 elem_size (fun t =>
          x <- load8 (hm_data m) (u32 (u32 bsq_index + t)) ;;
          store8 (hm_data m') (u32 (u32 bil_index + t)) x)))) ;;;
  (if nonnull (hm_wave m) then memcpy (hm_wave m') 0 (hm_wave m) 0 (bands * 4)
   else ret tt) ;;;
  ret bil_mat.

(** imageprocess.c 233-278: bsq2bip. *)
Definition bsq2bip (bsq_mat : ptr) : M ptr :=
  assert (nonnull bsq_mat) ;;;
  m <- hget bsq_mat ;;
  c <- il_cmp m "bip" ;;
  if c =? 1 then hyper_mat_copy bsq_mat else
  c <- il_cmp m "bsq" ;;
  assert (c =? 1) ;;;
  let samples := hm_samples m in
  let lines := hm_lines m in
  let bands := hm_bands m in
  let elem_size := get_elemsize (hm_type m) in
  bip_mat <- create_hyper_mat samples lines bands (hm_type m) (str "bip") ;;
  m' <- hget bip_mat ;;
  for_ 0 lines (fun i =>
    for_ 0 samples (fun j =>
      for_ 0 bands (fun k =>
        bsq_index <- ev ((k * samples * lines + i * samples + j) * elem_size)%C ;;
        bip_index <- ev ((i * samples * bands + j * bands + k) * elem_size)%C ;;
        for_ 0 elem_size (fun t =>
          x <- load8 (hm_data m) (u32 (u32 bsq_index + t)) ;;
          store8 (hm_data m') (u32 (u32 bip_index + t)) x)))) ;;;
  (if nonnull (hm_wave m) then memcpy (hm_wave m') 0 (hm_wave m) 0 (bands * 4)
   else ret tt) ;;;
  ret bip_mat.

(** imageprocess.c 284-328: bip2bsq. *)
Definition bip2bsq (bip_mat : ptr) : M ptr :=
  assert (nonnull bip_mat) ;;;
  m <- hget bip_mat ;;
  c <- il_cmp m "bsq" ;;
  if c =? 1 then hyper_mat_copy bip_mat else
  c <- il_cmp m "bip" ;;
  assert (c =? 1) ;;;
  let samples := hm_samples m in
  let lines := hm_lines m in
  let bands := hm_bands m in
  let elem_size := get_elemsize (hm_type m) in
  bsq_mat <- create_hyper_mat samples lines bands (hm_type m) (str "bsq") ;;
  m' <- hget bsq_mat ;;
  for_ 0 lines (fun i =>
    for_ 0 samples (fun j =>
      for_ 0 bands (fun k =>
        bsq_index <- ev ((k * samples * lines + i * samples + j) * elem_size)%C ;;
        bip_index <- ev ((i * samples * bands + j * bands + k) * elem_size)%C ;;
        for_ 0 elem_size (fun t =>
          x <- load8 (hm_data m) (u32 (u32 bip_index + t)) ;;
          store8 (hm_data m') (u32 (u32 bsq_index + t)) x)))) ;;;
  (if nonnull (hm_wave m) then memcpy (hm_wave m') 0 (hm_wave m) 0 (bands * 4)
   else ret tt) ;;;
  ret bsq_mat.

(** imageprocess.c 334-376: bip2bil. *)
Definition bip2bil (bip_mat : ptr) : M ptr :=
  assert (nonnull bip_mat) ;;;
  m <- hget bip_mat ;;
  c <- il_cmp m "bil" ;;
  if c =? 1 then hyper_mat_copy bip_mat else
  c <- il_cmp m "bip" ;;
  assert (c =? 1) ;;;
  let samples := hm_samples m in
  let lines := hm_lines m in
  let bands := hm_bands m in
  let elem_size := get_elemsize (hm_type m) in
  bil_mat <- create_hyper_mat samples lines bands (hm_type m) (str "bil") ;;
  m' <- hget bil_mat ;;
  for_ 0 lines (fun i =>
    for_ 0 samples (fun j =>
      for_ 0 bands (fun k =>
        bil_index <- ev ((i * samples * bands + k * samples + j) * elem_size)%C ;;
        bip_index <- ev ((i * samples * bands + j * bands + k) * elem_size)%C ;;
        for_ 0 elem_size (fun t =>
          x <- load8 (hm_data m) (u32 (u32 bip_index + t)) ;;
          store8 (hm_data m') (u32 (u32 bil_index + t)) x)))) ;;;
  (if nonnull (hm_wave m) then memcpy (hm_wave m') 0 (hm_wave m) 0 (bands * 4)
   else ret tt) ;;;
  ret bil_mat.

(** The body shared by the branches of convert2*: convert, copy back, delete. *)
Definition convert_back (conv : ptr -> M ptr) (mat : ptr) : M unit :=
  res <- conv mat ;;
  hyper_mat_copy_to res mat ;;;
  delete_hyper_mat res.

(** imageprocess.c 4-26: convert2bsq. *)
Definition convert2bsq (mat : ptr) : M unit :=
  assert (nonnull mat) ;;;
  m <- hget mat ;;
  c <- il_cmp m "bsq" ;;
  if c =? 1 then ret tt else
  c <- il_cmp m "bil" ;;
  if c =? 1 then convert_back bil2bsq mat else
  c <- il_cmp m "bip" ;;
  if c =? 1 then convert_back bip2bsq mat else ret tt.

(** imageprocess.c 28-51: convert2bil. *)
Definition convert2bil (mat : ptr) : M unit :=
  assert (nonnull mat) ;;;
  m <- hget mat ;;
  c <- il_cmp m "bil" ;;
  if c =? 1 then ret tt else
  c <- il_cmp m "bsq" ;;
  if c =? 1 then convert_back bsq2bil mat else
  c <- il_cmp m "bip" ;;
  if c =? 1 then convert_back bip2bil mat else ret tt.

(** imageprocess.c 53-76: convert2bip. *)
Definition convert2bip (mat : ptr) : M unit :=
  assert (nonnull mat) ;;;
  m <- hget mat ;;
  c <- il_cmp m "bip" ;;
  if c =? 1 then ret tt else
  c <- il_cmp m "bil" ;;
  if c =? 1 then convert_back bil2bip mat else
  c <- il_cmp m "bsq" ;;
  if c =? 1 then convert_back bsq2bip mat else ret tt.

(** imageprocess.c 388-472: hyper_mat_get_range. *)
Definition hyper_mat_get_range (src_mat : ptr)
    (start_row start_col start_band end_row end_col end_band : Z) : M ptr :=
  assert ((start_col <? end_col) && (start_row <? end_row) && (start_band <? end_band)) ;;;
  samples <- ev (end_col - start_col)%C ;;
  lines <- ev (end_row - start_row)%C ;;
  bands <- ev (end_band - start_band)%C ;;
  m <- hget src_mat ;;
  let data_type := hm_type m in
  dst_mat <- create_hyper_mat samples lines bands data_type (hm_il m) ;;
  m' <- hget dst_mat ;;
  let elem_size := get_elemsize data_type in
  let src_samples := hm_samples m in
  let src_lines := hm_lines m in
  let src_bands := hm_bands m in
  c1 <- il_cmp m "bil" ;;
  (if negb (c1 =? 0) then
     for_ start_row end_row (fun i =>
       for_ start_band end_band (fun k =>
         for_ start_col end_col (fun j =>
           src_index <- ev ((i * src_samples * src_bands + k * src_samples + j) * elem_size)%C ;;
           dst_index <- ev (((i - start_row) * samples * bands + (k - start_band) * samples + j - start_col) * elem_size)%C ;;
           for_ 0 elem_size (fun t =>
             si <- ev (src_index + t)%C ;;
             di <- ev (dst_index + t)%C ;;
             x <- load8 (hm_data m) si ;;
             store8 (hm_data m') di x))))
   else
     c2 <- il_cmp m "bip" ;;
     if negb (c2 =? 0) then
       for_ start_row end_row (fun i =>
         for_ start_col end_col (fun j =>
           for_ start_band end_band (fun k =>
             src_index <- ev ((i * src_samples * src_bands + j * src_bands + k) * elem_size)%C ;;
             dst_index <- ev (((i - start_row) * samples * bands + (j - start_col) * bands + k - start_band) * elem_size)%C ;;
             for_ 0 elem_size (fun t =>
               si <- ev (src_index + t)%C ;;
               di <- ev (dst_index + t)%C ;;
               x <- load8 (hm_data m) si ;;
               store8 (hm_data m') di x))))
     else
       c3 <- il_cmp m "bsq" ;;
       if negb (c3 =? 0) then
         for_ start_band end_band (fun k =>
           for_ start_row end_row (fun i =>
             for_ start_col end_col (fun j =>
               src_index <- ev ((k * src_samples * src_lines + i * src_samples + j) * elem_size)%C ;;
               dst_index <- ev (((k - start_band) * samples * lines + (i - start_row) * samples + j - start_col) * elem_size)%C ;;
               for_ 0 elem_size (fun t =>
                 si <- ev (src_index + t)%C ;;
                 di <- ev (dst_index + t)%C ;;
                 x <- load8 (hm_data m) si ;;
                 store8 (hm_data m') di x))))
       else ret tt) ;;;
  (if nonnull (hm_wave m) then
     n <- ev (end_band - start_band)%C ;;
     memcpy (hm_wave m') 0 (hm_wave m) (start_band * 4) (n * 4)
   else ret tt) ;;;
  ret dst_mat.

(** imageprocess.c 481-498: reshape_hypermat_2_simplemat. *)
Definition reshape_hypermat_2_simplemat (src_mat : ptr) (dst_rows dst_cols : Z) : M ptr :=
  m <- hget src_mat ;;
  src_size <- ev (hm_samples m * hm_lines m * hm_bands m)%C ;;
  dst_size <- ev (dst_rows * dst_cols)%C ;;
  assert (src_size =? dst_size) ;;;
  dst_mat <- create_simple_mat dst_rows dst_cols (hm_type m) 1 ;;
  md <- sget dst_mat ;;
  n <- ev (dst_rows * dst_cols * sm_esize md)%C ;;
  memcpy (sm_data md) 0 (hm_data m) 0 n ;;;
  ret dst_mat.

(** imageprocess.c 506-520: hyper_mat_2_simple_mat. *)
Definition hyper_mat_2_simple_mat (src_mat dst_mat : ptr) (band : Z) : M unit :=
  m <- hget src_mat ;;
  c <- il_cmp m "bsq" ;;
  assert (c =? 1) ;;;
  let samples := hm_samples m in
  let lines := hm_lines m in
  md <- sget dst_mat ;;
  set_header dst_mat (CSM (mkSM lines samples (hm_type m) (sm_chan md) (sm_esize md) (sm_data md))) ;;;
  let elemsize := get_elemsize (hm_type m) in
  off <- ev (samples * lines * (band - 1) * elemsize)%C ;;
  n <- ev (samples * lines * elemsize)%C ;;
  memcpy (sm_data md) 0 (hm_data m) off n.

(** imageprocess.c 529-542: simple_mat_2_hyper_mat. *)
Definition simple_mat_2_hyper_mat (dst_mat src_mat : ptr) (band : Z) : M unit :=
  m <- hget dst_mat ;;
  let samples := hm_samples m in
  let lines := hm_lines m in
  let bands := hm_bands m in
  ms <- sget src_mat ;;
  assert ((sm_rows ms =? lines) && (sm_cols ms =? samples)) ;;;
  assert ((band <=? bands) && (band >? 0)) ;;;
  c <- il_cmp m "bsq" ;;
  assert (c =? 1) ;;;
  off <- ev (samples * lines * (band - 1))%C ;;
  n <- ev (samples * lines)%C ;;
  memcpy (hm_data m) off (sm_data ms) 0 n.

(** imageprocess.c 549-567: simple_mat_transport. *)
Definition simple_mat_transport (res src : ptr) : M unit :=
  mr <- sget res ;;
  let rows := sm_rows mr in
  let cols := sm_cols mr in
  ms <- sget src ;;
  assert ((rows =? sm_cols ms) && (cols =? sm_rows ms) && (sm_type mr =? sm_type ms)) ;;;
  let elemsize := get_elemsize (sm_type ms) in
  for_ 0 rows (fun i =>
    for_ 0 cols (fun j =>
      for_ 0 elemsize (fun k =>
        d <- ev (i * cols * elemsize + j * elemsize + k)%C ;;
        s <- ev (j * rows * elemsize + i * elemsize + k)%C ;;
        x <- load8 (sm_data ms) s ;;
        store8 (sm_data mr) d x))).

(** imageprocess.c 569-597: simple_mat_addition_uchar. *)
Definition simple_mat_addition_uchar (mat1 mat2 dst_mat : ptr) : M unit :=
  assert (nonnull mat1 && nonnull mat2 && nonnull dst_mat) ;;;
  m1 <- sget mat1 ;;
  m2 <- sget mat2 ;;
  assert (sm_chan m1 =? sm_chan m2) ;;;
  let channels := sm_chan m1 in
  let rows := if sm_rows m1 >=? sm_rows m2 then sm_rows m2 else sm_rows m1 in
  let cols := if sm_cols m1 >=? sm_cols m2 then sm_cols m2 else sm_cols m1 in
  md <- sget dst_mat ;;
  for_ 0 rows (fun i =>
    for_ 0 cols (fun j =>
      for_ 0 channels (fun k =>
        x <- ev (i * cols * channels + j * channels + k)%C ;;
        a <- load8 (sm_data m1) x ;;
        b <- load8 (sm_data m2) x ;;
        store8 (sm_data md) x (a + b)))).

(** imageprocess.c 643-654: hyper_mat_splicing. *)
Definition hyper_mat_splicing (mat part : ptr) (start_index : Z) : M unit :=
  m <- hget mat ;;
  mp <- hget part ;;
  assert (hm_type m =? hm_type mp) ;;;
  let elemsize := get_elemsize (hm_type m) in
  off <- ev (start_index * elemsize)%C ;;
  n <- ev (hm_samples mp * hm_lines mp * hm_bands mp * elemsize)%C ;;
  memcpy (hm_data m) off (hm_data mp) 0 n.

(** Names for the families of functions above (used to state properties once
    for all members). *)
Definition conversion (l l' : string) : option (ptr -> M ptr) :=
  if String.eqb l "bil" && String.eqb l' "bsq" then Some bil2bsq
  else if String.eqb l "bil" && String.eqb l' "bip" then Some bil2bip
  else if String.eqb l "bsq" && String.eqb l' "bil" then Some bsq2bil
  else if String.eqb l "bsq" && String.eqb l' "bip" then Some bsq2bip
  else if String.eqb l "bip" && String.eqb l' "bsq" then Some bip2bsq
  else if String.eqb l "bip" && String.eqb l' "bil" then Some bip2bil
  else None.
Definition normalise (l : string) : option (ptr -> M unit) :=
  if String.eqb l "bsq" then Some convert2bsq
  else if String.eqb l "bil" then Some convert2bil
  else if String.eqb l "bip" then Some convert2bip
  else None.

(** A client that converts along a list of layouts. *)
Fixpoint convert_along (l : string) (ls : list string) (p : ptr) : M ptr :=
  match ls with
  | [] => ret p
  | l' :: r =>
      match conversion l l' with
      | Some f => q <- f p ;; convert_along l' r q
      | None => ub
      end
  end.
