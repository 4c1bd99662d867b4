(** * Model: morphology and histogram equalisation
    (/repo/modules/process/src/c_src/morphology.c,
     /repo/modules/algorithm/src/HisEqualization.c). *)
From Verif Require Import Base ModelCore.
Open Scope Z_scope.

(** morphology.c 56 and 120: the window lies inside the image. *)
Definition window_inside (i j rows cols width height : Z) : M bool :=
  a <- ev (i - height / 2)%C ;;
  if a >=? 0 then
    b <- ev (i + height / 2)%C ;;
    if b <? rows then
      c <- ev (j - width / 2)%C ;;
      if c >=? 0 then
        d <- ev (j + width / 2)%C ;;
        ret (d <? cols)
      else ret false
    else ret false
  else ret false.

(** morphology.c 52-62 and 116-126: the scan for a cleared pixel under the
    element; [flag] is the variable of that name. *)
Definition window_scan (src sd : ptr) (i j rows cols width height : Z) : M Z :=
  forS 0 height (fun m flag =>
    forS 0 width (fun n flag =>
      b <- window_inside i j rows cols width height ;;
      if b : bool then
        k <- ev (m * width + n)%C ;;
        x <- load8 sd k ;;
        if x =? 1 then
          y <- ev ((i - height / 2 + m) * rows + j - width / 2 + n)%C ;;
          v <- load8 src y ;;
          ret (if v =? 0 then 1 else flag)
        else ret flag
      else ret flag) flag) 0.

(** morphology.c 17-72: hypercv_corrosion. *)
Definition hypercv_corrosion (mat dst_mat s : ptr) : M unit :=
  assert (nonnull mat) ;;;
  assert (nonnull s) ;;;
  m <- sget mat ;;
  k <- s2get s ;;
  let rows := sm_rows m in
  let cols := sm_cols m in
  let width := s2_width k in
  let height := s2_height k in
  if (cols <? width) || (rows <? height) then ret tt
  else
    dst_mat <- (if nonnull dst_mat then ret dst_mat else simple_mat_copy mat) ;;
    md <- sget dst_mat ;;
    for_ 0 rows (fun i =>
      for_ 0 cols (fun j =>
        x <- ev (i * rows + j)%C ;;
        v <- load8 (sm_data m) x ;;
        if negb (v =? 0) then
          flag <- window_scan (sm_data m) (s2_data k) i j rows cols width height ;;
          if flag =? 0 then
            v <- load8 (sm_data m) x ;;
            store8 (sm_data md) x v
          else store8 (sm_data md) x 0
        else store8 (sm_data md) x 0)).

(** morphology.c 81-136: hypercv_expend. *)
Definition hypercv_expend (mat dst_mat s : ptr) : M unit :=
  assert (nonnull mat) ;;;
  assert (nonnull s) ;;;
  m <- sget mat ;;
  k <- s2get s ;;
  let rows := sm_rows m in
  let cols := sm_cols m in
  let width := s2_width k in
  let height := s2_height k in
  if (cols <? width) || (rows <? height) then ret tt
  else
    dst_mat <- (if nonnull dst_mat then ret dst_mat else simple_mat_copy mat) ;;
    md <- sget dst_mat ;;
    for_ 0 rows (fun i =>
      for_ 0 cols (fun j =>
        x <- ev (i * rows + j)%C ;;
        v <- load8 (sm_data m) x ;;
        if v =? 0 then
          flag <- window_scan (sm_data m) (s2_data k) i j rows cols width height ;;
          if flag =? 0 then
            v <- load8 (sm_data m) x ;;
            store8 (sm_data md) x v
          else store8 (sm_data md) x 1
        else
          v <- load8 (sm_data m) x ;;
          store8 (sm_data md) x v)).

(** morphology.c 147-165: hypercv_open. *)
Definition hypercv_open (src dst kernel : ptr) (iterations : Z) : M unit :=
  assert (nonnull src) ;;;
  assert (nonnull kernel) ;;;
  _ <- sget src ;;
  dst <- (if nonnull dst then ret dst else simple_mat_copy src) ;;
  for_ 0 iterations (fun _ =>
    hypercv_corrosion src dst kernel ;;;
    hypercv_expend src dst kernel).

(** morphology.c 175-193: hypercv_close. *)
Definition hypercv_close (src dst kernel : ptr) (iterations : Z) : M unit :=
  assert (nonnull src) ;;;
  assert (nonnull kernel) ;;;
  _ <- sget src ;;
  dst <- (if nonnull dst then ret dst else simple_mat_copy src) ;;
  for_ 0 iterations (fun _ =>
    hypercv_expend src dst kernel ;;;
    hypercv_corrosion src dst kernel).

(** HisEqualization.c 13-37: HisEqualization.  The local array hist is a
    function that only its 256 elements are read of. *)
Definition HisEqualization (src_mat dst_mat : ptr) : M unit :=
  assert (nonnull src_mat && nonnull dst_mat) ;;;
  ms <- sget src_mat ;;
  let rows := sm_rows ms in
  let cols := sm_cols ms in
  md <- sget dst_mat ;;
  assert ((rows =? sm_rows md) && (sm_cols md =? cols)) ;;;
  n <- ev (rows * cols)%C ;;
  hist <- forS 0 n (fun i (hist : Z -> Z) =>
    v <- load8 (sm_data ms) i ;;
    let old := hist v in
    c <- ev (old + 1)%C ;;
    ret (fupd hist v c)) (fun _ => 0) ;;
  hist <- forS 1 256 (fun i (hist : Z -> Z) =>
    let this := hist i in
    let before := hist (i - 1) in
    a <- ev (this + before)%C ;;
    b <- ev (a * 255 / (rows * cols))%C ;;
    ret (fupd hist i b)) hist ;;
  for_ 0 n (fun i =>
    v <- load8 (sm_data ms) i ;;
    store8 (sm_data md) i (hist v)).
