(** * Model: showing an image (highgui/src/smshow.c).  The drawing itself is
    left to SDL or to the X server; what the library does is modelled. *)
From Verif Require Import Base ModelCore.
Open Scope Z_scope.

(** highgui/src/smshow.c 8-10, with USE_SDL and X11_switch 0 as in highgui/src/precomp.h 22-28. *)
Definition smshow (mat : ptr) : M unit := assert (nonnull mat).

(** smshow.c 130-158: the picture in the format of the X server, one word of 32 bits per pixel. *)
Definition x11_buffer (mat : ptr) : M ptr :=
  m <- sget mat ;;
  let WIDTH := sm_cols m in
  let HEIGHT := sm_rows m in
  let data := sm_data m in
  n <- ev (WIDTH * HEIGHT * 4)%C ;;
  buffer <- malloc n ;;
  count <- ev (WIDTH * HEIGHT)%C ;;
  (if sm_chan m =? 1 then
     for_ 0 count (fun i =>
       for_ 0 3 (fun j =>
         a <- ev (i * 4 + j)%C ;;
         v <- load8 data i ;;
         store8 buffer a v) ;;;
       a <- ev (i * 4 + 3)%C ;;
       store8 buffer a 1)
   else if sm_chan m =? 3 then
     for_ 0 count (fun i =>
       for_ 0 3 (fun j =>
         a <- ev (i * 4 + j)%C ;;
         b <- ev (i * 3 + j)%C ;;
         v <- load8 data b ;;
         store8 buffer a v) ;;;
       a <- ev (i * 4 + 3)%C ;;
       store8 buffer a 1)
   else if sm_chan m =? 4 then memcpy buffer 0 data 0 n
   else ret tt) ;;;
  ret buffer.

(** smshow.c 8-10, 124-184, with X11_switch 1.  The window is opened (lines
    160-177, calls of the X library only); line 180 then passes ximage, which
    has never been given a value. *)
Definition smshow_x11 (mat : ptr) : M unit :=
  assert (nonnull mat) ;;;
  buffer <- x11_buffer mat ;;
  ub.
