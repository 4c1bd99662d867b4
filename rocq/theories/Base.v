(** * Base: outcomes, heap, C integers, loops.

    The execution model shared by all modelled functions.  Nothing in this
    file is specific to one C function, except the record types which
    transcribe the structs of
    /repo/modules/core/include/c_include/{hypermat.h,simplemat.h,struct_2D.h}. *)
From Coq Require Export ZArith List Bool Lia.
Export ListNotations.
Open Scope Z_scope.

(** ** Pointers and headers *)

(** A pointer to the start of a heap object; [None] is NULL. *)
Definition ptr := option nat.

(** core/include/c_include/simplemat.h 3-11: struct SIMPLE_MAT. *)
Record smat := mkSM {
  sm_rows : Z; sm_cols : Z; sm_type : Z; sm_chan : Z; sm_esize : Z;
  sm_data : ptr }.

(** core/include/c_include/hypermat.h 13-22: struct HyperMat.  [hm_pad] are the
    bytes that follow the 3-character tag in memory (5 bytes of padding and the
    8 bytes of the data pointer): string functions applied to the tag read
    them, because the tag has no terminating NUL. *)
Record hmat := mkHM {
  hm_samples : Z; hm_lines : Z; hm_bands : Z; hm_type : Z;
  hm_il : list Z; hm_pad : list Z;
  hm_data : ptr; hm_wave : ptr }.

(** core/include/c_include/struct_2D.h: struct STRUCT_2D. *)
Record s2d := mkS2 { s2_width : Z; s2_height : Z; s2_data : ptr }.

(** Contents of a heap object. *)
Inductive cont :=
| CBytes (d : Z -> Z)     (* raw bytes; cell i holds [d i mod 256] *)
| CSM (m : smat)
| CHM (m : hmat)
| CS2 (m : s2d).

(** A heap object: address, size in bytes, the malloc chunk it belongs to
    (its own index when it is the start of a chunk), liveness, contents. *)
Record obj := mkObj {
  o_addr : Z; o_size : Z; o_root : nat; o_live : bool; o_cont : cont }.

(** Machine state: heap objects and the file system (path -> bytes; the first
    binding of a path counts). *)
Record st := mkSt { objs : list obj; files : list (list Z * list Z) }.

(** The environment: what the C library decides.  [e_addr k] is the address of
    the k-th object if malloc creates it, [e_junk k] the stale contents of that
    memory. *)
Record env := mkEnv { e_addr : nat -> Z; e_junk : nat -> Z -> Z }.

(** ** Outcomes and the monad *)

Inductive out (A : Type) :=
| Ret (a : A) (s : st)   (* normal return *)
| Exit                   (* hypercv_assert failed: exit(1) *)
| UB                     (* undefined behaviour *)
| Fuel.                  (* a loop did not terminate within its fuel *)
Arguments Ret {A} a s.
Arguments Exit {A}.
Arguments UB {A}.
Arguments Fuel {A}.

Definition M (A : Type) := env -> st -> out A.

Definition ret {A} (a : A) : M A := fun _ s => Ret a s.
Definition bind {A B} (m : M A) (k : A -> M B) : M B := fun e s =>
  match m e s with
  | Ret a s' => k a e s'
  | Exit => Exit
  | UB => UB
  | Fuel => Fuel
  end.
Definition ub {A} : M A := fun _ _ => UB.
Definition exit_ {A} : M A := fun _ _ => Exit.
Definition fuel_ {A} : M A := fun _ _ => Fuel.

Notation "x <- m ;; k" := (bind m (fun x => k))
  (at level 100, m at next level, right associativity).
Notation "m ;;; k" := (bind m (fun _ => k))
  (at level 100, right associativity).

(** core/include/c_include/err.h 17-28: hypercv_assert. *)
Definition assert (b : bool) : M unit := if b then ret tt else exit_.

(** ** C integer expressions (32-bit int, every intermediate checked) *)

Definition INT_MAX : Z := 2147483647.
Definition INT_MIN : Z := -2147483648.
Definition in_int (z : Z) : bool := (INT_MIN <=? z) && (z <=? INT_MAX).

(** [None] is undefined behaviour of the expression. *)
Definition cint := option Z.
Definition ci (z : Z) : cint := Some z.
Coercion ci : Z >-> cint.

Definition chk (z : Z) : cint := if in_int z then Some z else None.
Definition cop (f : Z -> Z -> Z) (a b : cint) : cint :=
  match a, b with Some x, Some y => chk (f x y) | _, _ => None end.
Definition cadd := cop Z.add.
Definition csub := cop Z.sub.
Definition cmul := cop Z.mul.
(** C division truncates towards zero; division by zero is undefined. *)
Definition cdiv (a b : cint) : cint :=
  match a, b with
  | Some x, Some y => if y =? 0 then None else chk (Z.quot x y)
  | _, _ => None end.
Definition crem (a b : cint) : cint :=
  match a, b with
  | Some x, Some y =>
      if y =? 0 then None
      else match chk (Z.quot x y) with Some _ => Some (Z.rem x y) | None => None end
  | _, _ => None end.

Declare Scope c_scope.
Delimit Scope c_scope with C.
Bind Scope c_scope with cint.
Infix "+" := cadd : c_scope.
Infix "-" := csub : c_scope.
Infix "*" := cmul : c_scope.
Infix "/" := cdiv : c_scope.

Definition ev (c : cint) : M Z := fun _ s =>
  match c with Some z => Ret z s | None => UB end.

(** Conversions to narrower or unsigned types. *)
Definition u8 (z : Z) : Z := z mod 256.
Definition u16 (z : Z) : Z := z mod 65536.
Definition u32 (z : Z) : Z := z mod 4294967296.
Definition u64 (z : Z) : Z := z mod 18446744073709551616.
(** Two's complement reading of an n-bit pattern. *)
Definition sgn (n : Z) (z : Z) : Z :=
  let w := z mod 2 ^ n in if w <? 2 ^ (n - 1) then w else w - 2 ^ n.

(** ** Lists *)

Fixpoint lupd {A} (n : nat) (f : A -> A) (l : list A) : list A :=
  match l with
  | [] => []
  | x :: r => match n with O => f x :: r | S n' => x :: lupd n' f r end
  end.

(** ** Heap access *)

Definition fupd (d : Z -> Z) (i v : Z) : Z -> Z :=
  fun j => if j =? i then v else d j.

Definition set_bytes (d : Z -> Z) (o : obj) : obj :=
  mkObj (o_addr o) (o_size o) (o_root o) (o_live o) (CBytes d).
Definition set_cont (c : cont) (o : obj) : obj :=
  mkObj (o_addr o) (o_size o) (o_root o) (o_live o) c.
Definition set_dead (o : obj) : obj :=
  mkObj (o_addr o) (o_size o) (o_root o) false (o_cont o).

(** Replace the bytes of object q. *)
Definition putd (s : st) (q : nat) (d : Z -> Z) : st :=
  mkSt (lupd q (set_bytes d) (objs s)) (files s).
Definition putc (s : st) (q : nat) (c : cont) : st :=
  mkSt (lupd q (set_cont c) (objs s)) (files s).

(** The live byte array at p: its size and contents. *)
Definition bytes_at (s : st) (p : ptr) : option (nat * Z * (Z -> Z)) :=
  match p with
  | None => None
  | Some q =>
      match nth_error (objs s) q with
      | Some o =>
          if o_live o then
            match o_cont o with CBytes d => Some (q, o_size o, d) | _ => None end
          else None
      | None => None
      end
  end.

Definition inb (i n : Z) : bool := (0 <=? i) && (i <? n).

Definition load8 (p : ptr) (i : Z) : M Z := fun _ s =>
  match bytes_at s p with
  | Some (_, n, d) => if inb i n then Ret (d i mod 256) s else UB
  | None => UB
  end.

Definition store8 (p : ptr) (i v : Z) : M unit := fun _ s =>
  match bytes_at s p with
  | Some (q, n, d) =>
      if inb i n then Ret tt (putd s q (fupd d i (v mod 256))) else UB
  | None => UB
  end.

(** Little-endian multi-byte access at a byte offset. *)
Fixpoint loadle (p : ptr) (off : Z) (n : nat) : M Z :=
  match n with
  | O => ret 0
  | S n' => b <- load8 p off ;; r <- loadle p (off + 1) n' ;; ret (b + 256 * r)
  end.
Fixpoint storele (p : ptr) (off : Z) (n : nat) (v : Z) : M unit :=
  match n with
  | O => ret tt
  | S n' => store8 p off (v mod 256) ;;; storele p (off + 1) n' (v / 256)
  end.

(** memset: n is the value of the size argument as a mathematical integer;
    negative values (converted to a huge size_t) are out of bounds. *)
Definition memset (p : ptr) (off v n : Z) : M unit := fun _ s =>
  match bytes_at s p with
  | Some (q, sz, d) =>
      if (0 <=? n) && (0 <=? off) && (off + n <=? sz) then
        Ret tt (putd s q (fun i => if (off <=? i) && (i <? off + n) then v mod 256 else d i))
      else UB
  | None => UB
  end.

(** memcpy: both ranges in bounds; overlapping ranges are undefined. *)
Definition memcpy (dp : ptr) (doff : Z) (sp : ptr) (soff n : Z) : M unit := fun _ s =>
  match bytes_at s dp, bytes_at s sp with
  | Some (q, dsz, d), Some (p, ssz, f) =>
      if (0 <=? n) && (0 <=? doff) && (doff + n <=? dsz)
         && (0 <=? soff) && (soff + n <=? ssz)
         && (negb (Nat.eqb p q) || (doff + n <=? soff) || (soff + n <=? doff)
             || (n =? 0))
      then
        Ret tt (putd s q (fun i => if (doff <=? i) && (i <? doff + n)
                                   then f (i - doff + soff) else d i))
      else UB
  | _, _ => UB
  end.

(** malloc: fails (NULL) when the requested size, converted to size_t, is not
    representable as an object size; succeeds otherwise. *)
Definition malloc (n : Z) : M ptr := fun e s =>
  if (0 <=? n) && (n <? 2 ^ 62) then
    let k := length (objs s) in
    Ret (Some k)
        (mkSt (objs s ++ [mkObj (e_addr e k) n k true (CBytes (e_junk e k))]) (files s))
  else Ret None s.

Definition kill_root (k : nat) (o : obj) : obj :=
  if Nat.eqb (o_root o) k then set_dead o else o.

(** free: NULL is a no-op; otherwise the pointer must be the start of a live
    malloc chunk; everything in the chunk dies. *)
Definition free (p : ptr) : M unit := fun _ s =>
  match p with
  | None => Ret tt s
  | Some k =>
      match nth_error (objs s) k with
      | Some o =>
          if o_live o && Nat.eqb (o_root o) k then
            Ret tt (mkSt (map (kill_root k) (objs s)) (files s))
          else UB
      | None => UB
      end
  end.

(** The address of a pointer as an integer (also of a dangling one). *)
Definition addr_of (p : ptr) : M Z := fun _ s =>
  match p with
  | None => Ret 0 s
  | Some k =>
      match nth_error (objs s) k with
      | Some o => Ret (o_addr o) s
      | None => UB
      end
  end.

(** Use the address range [a, a+n) inside chunk p, beyond the first [hdr]
    bytes, as a byte array of its own.  Undefined unless the range lies inside
    the chunk and is disjoint from every array carved out of it before. *)
Definition disjoint_part (k : nat) (a n : Z) (x : nat * obj) : bool :=
  let (i, o) := x in
  negb (Nat.eqb (o_root o) k) || Nat.eqb i k
  || (o_addr o + o_size o <=? a) || (a + n <=? o_addr o).

Fixpoint number {A} (i : nat) (l : list A) : list (nat * A) :=
  match l with [] => [] | x :: r => (i, x) :: number (S i) r end.

Definition carve (p : ptr) (hdr a n : Z) : M ptr := fun e s =>
  match p with
  | None => UB
  | Some k =>
      match nth_error (objs s) k with
      | Some o =>
          if o_live o && (0 <=? n) && (o_addr o + hdr <=? a)
             && (a + n <=? o_addr o + o_size o)
             && forallb (disjoint_part k a n) (number 0 (objs s))
          then
            let j := length (objs s) in
            Ret (Some j)
                (mkSt (objs s ++ [mkObj a n k true (CBytes (e_junk e j))]) (files s))
          else UB
      | None => UB
      end
  end.

(** Header access: reading through NULL, a dangling pointer or an object of
    another kind is undefined. *)
Definition sm_at (s : st) (p : ptr) : option smat :=
  match p with
  | Some k =>
      match nth_error (objs s) k with
      | Some o => if o_live o then match o_cont o with CSM m => Some m | _ => None end
                  else None
      | None => None
      end
  | None => None
  end.
Definition hm_at (s : st) (p : ptr) : option hmat :=
  match p with
  | Some k =>
      match nth_error (objs s) k with
      | Some o => if o_live o then match o_cont o with CHM m => Some m | _ => None end
                  else None
      | None => None
      end
  | None => None
  end.
Definition s2_at (s : st) (p : ptr) : option s2d :=
  match p with
  | Some k =>
      match nth_error (objs s) k with
      | Some o => if o_live o then match o_cont o with CS2 m => Some m | _ => None end
                  else None
      | None => None
      end
  | None => None
  end.

Definition sget (p : ptr) : M smat := fun _ s =>
  match sm_at s p with Some m => Ret m s | None => UB end.
Definition hget (p : ptr) : M hmat := fun _ s =>
  match hm_at s p with Some m => Ret m s | None => UB end.
Definition s2get (p : ptr) : M s2d := fun _ s =>
  match s2_at s p with Some m => Ret m s | None => UB end.

(** Write a header into a live chunk. *)
Definition set_header (p : ptr) (c : cont) : M unit := fun _ s =>
  match p with
  | Some k =>
      match nth_error (objs s) k with
      | Some o => if o_live o then Ret tt (putc s k c) else UB
      | None => UB
      end
  | None => UB
  end.

(** ** Files *)

Fixpoint lookup_file (l : list (list Z * list Z)) (p : list Z) : option (list Z) :=
  match l with
  | [] => None
  | (q, b) :: r => if list_eq_dec Z.eq_dec p q then Some b else lookup_file r p
  end.
Definition file_of (s : st) (p : list Z) : option (list Z) := lookup_file (files s) p.
Definition write_file (p : list Z) (b : list Z) : M unit := fun _ s =>
  Ret tt (mkSt (objs s) ((p, b) :: files s)).

(** ** Loops *)

(** for (int i = lo; i < hi; i++) body(i) *)
Fixpoint iter_ (n : nat) (i : Z) (body : Z -> M unit) : M unit :=
  match n with
  | O => ret tt
  | S n' => body i ;;; iter_ n' (i + 1) body
  end.
Definition for_ (lo hi : Z) (body : Z -> M unit) : M unit :=
  iter_ (Z.to_nat (hi - lo)) lo body.

(** The same with a loop-carried local variable. *)
Fixpoint iterS {S} (n : nat) (i : Z) (body : Z -> S -> M S) (x : S) : M S :=
  match n with
  | O => ret x
  | Datatypes.S n' => y <- body i x ;; iterS n' (i + 1) body y
  end.
Definition forS {S} (lo hi : Z) (body : Z -> S -> M S) (x : S) : M S :=
  iterS (Z.to_nat (hi - lo)) lo body x.

(** while loop with fuel: [cond] then [body]. *)
Fixpoint whileF {S} (n : nat) (cond : S -> bool) (body : S -> M S) (x : S) : M S :=
  if cond x then
    match n with
    | O => fuel_
    | Datatypes.S n' => y <- body x ;; whileF n' cond body y
    end
  else ret x.
