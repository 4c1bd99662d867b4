(** * Model: the dynamic array macros of
    /repo/modules/core/include/c_include/vector.h.

    A vector variable is modelled by the start of its malloc block (NULL when
    the variable is NULL): the variable itself holds the address 16 bytes
    further on, so the size (index -2 of vec read as size_t) is the 8-byte word at
    byte 0 of the block, the capacity (index -1) the one at byte 8, and vec[i] the element at byte
    16 + i*sz, where sz is sizeof of the variable's element.  The macros assign the variable;
    the functions return its new value. *)
From Verif Require Import Base ModelCore SpecVector.
Open Scope Z_scope.

(** The C library's realloc: the block moves, its contents are kept up to the
    smaller size, the old block dies; NULL when the size cannot be allocated. *)
Definition realloc (p : ptr) (n : Z) : M ptr := fun e s =>
  match p with
  | None => malloc n e s
  | Some q =>
      match nth_error (objs s) q with
      | Some o =>
          match o_cont o with
          | CBytes d =>
              if o_live o && Nat.eqb (o_root o) q then
                if (0 <=? n) && (n <? 2 ^ 62) then
                  let k := length (objs s) in
                  Ret (Some k)
                    (mkSt (map (kill_root q) (objs s)
                           ++ [mkObj (e_addr e k) n k true
                                 (CBytes (fun i => if i <? Z.min n (o_size o) then d i else e_junk e k i))])
                          (files s))
                else Ret None s
              else UB
          | _ => UB
          end
      | None => UB
      end
  end.

(** vector.h 9-14: vector_set_capacity. *)
Definition vector_set_capacity (vec : ptr) (size : Z) : M unit :=
  if nonnull vec then storele vec 8 8 size else ret tt.

(** vector.h 22-27: vector_set_size. *)
Definition vector_set_size (vec : ptr) (size : Z) : M unit :=
  if nonnull vec then storele vec 0 8 size else ret tt.

(** vector.h 34-35: vector_capacity. *)
Definition vector_capacity (vec : ptr) : M Z :=
  if nonnull vec then loadle vec 8 8 else ret 0.

(** vector.h 42-43: vector_size. *)
Definition vector_size (vec : ptr) : M Z :=
  if nonnull vec then loadle vec 0 8 else ret 0.

(** vector.h 50-51: vector_empty. *)
Definition vector_empty (vec : ptr) : M bool :=
  n <- vector_size vec ;; ret (n =? 0).

(** vector.h 59-75: vector_grow.  Sizes are size_t. *)
Definition vector_grow (sz : Z) (vec : ptr) (count : Z) : M ptr :=
  if negb (nonnull vec) then
    p <- malloc (u64 (u64 (count * sz) + 16)) ;;
    assert (nonnull p) ;;;
    vector_set_capacity p count ;;;
    vector_set_size p 0 ;;;
    ret p
  else
    p2 <- realloc vec (u64 (u64 (count * sz) + 16)) ;;
    assert (nonnull p2) ;;;
    vector_set_capacity p2 count ;;;
    ret p2.

(** vector.h 82-85: vector_pop_back. *)
Definition vector_pop_back (vec : ptr) : M unit :=
  n <- vector_size vec ;; vector_set_size vec (u64 (n - 1)).

(** Reading and assigning vec[i]; an element is copied as its sz bytes. *)
Definition vector_get (sz : Z) (vec : ptr) (i : Z) : M Z :=
  loadle vec (16 + i * sz) (Z.to_nat sz).
Definition vector_set (sz : Z) (vec : ptr) (i v : Z) : M unit :=
  storele vec (16 + i * sz) (Z.to_nat sz) v.

(** vector.h 93-105: vector_erase. *)
Definition vector_erase (sz : Z) (vec : ptr) (i : Z) : M unit :=
  if nonnull vec then
    n <- vector_size vec ;;
    if i <? n then
      vector_set_size vec (u64 (n - 1)) ;;;
      for_ i (u64 (n - 1)) (fun x => v <- vector_get sz vec (x + 1) ;; vector_set sz vec x v)
    else ret tt
  else ret tt.

(** vector.h 112-119: vector_free; the variable becomes NULL. *)
Definition vector_free (vec : ptr) : M ptr :=
  (if nonnull vec then free vec else ret tt) ;;; ret None.

(** vector.h 144-152: vector_push_back. *)
Definition vector_push_back (sz : Z) (vec : ptr) (value : Z) : M ptr :=
  cap <- vector_capacity vec ;;
  n <- vector_size vec ;;
  v' <- (if cap <=? n then
           vector_grow sz vec (if cap =? 0 then u64 (cap + 1) else u64 (cap * 2))
         else ret vec) ;;
  n' <- vector_size v' ;;
  vector_set sz v' n' value ;;;
  n'' <- vector_size v' ;;
  vector_set_size v' (u64 (n'' + 1)) ;;;
  ret v'.

(** A client performing one operation: new value of the variable, value read. *)
Definition vector_op (sz : Z) (o : vop) (vec : ptr) : M (ptr * option Z) :=
  match o with
  | Push v => p <- vector_push_back sz vec v ;; ret (p, None)
  | Pop => vector_pop_back vec ;;; ret (vec, None)
  | Erase i => vector_erase sz vec i ;;; ret (vec, None)
  | At i => x <- vector_get sz vec i ;; ret (vec, Some x)
  | Size => x <- vector_size vec ;; ret (vec, Some x)
  | Capacity => x <- vector_capacity vec ;; ret (vec, Some x)
  end.

(** A client performing a sequence of operations: final variable, values read. *)
Fixpoint vector_ops (sz : Z) (l : list vop) (vec : ptr) : M (ptr * list Z) :=
  match l with
  | [] => ret (vec, [])
  | o :: r =>
      x <- vector_op sz o vec ;;
      y <- vector_ops sz r (fst x) ;;
      ret (fst y, match snd x with Some v => v :: snd y | None => snd y end)
  end.
