(** * Specification of the dynamic array: a mathematical list. *)
From Verif Require Import Base SpecBase SpecNum.
Open Scope Z_scope.

(** Operations of a client. *)
Inductive vop := Push (v : Z) | Pop | Erase (i : Z) | At (i : Z) | Size | Capacity.

(** The content and the capacity. *)
Definition vstate : Type := list Z * Z.

Fixpoint remove_nth (n : nat) (l : list Z) : list Z :=
  match l, n with
  | [], _ => []
  | _ :: r, O => r
  | x :: r, S n' => x :: remove_nth n' r
  end.

(** What may be asked: elements fit their type, pop needs an element, reading
    an index below the size. *)
Definition vallowed (sz : Z) (o : vop) (l : list Z) : Prop :=
  match o with
  | Push v => 0 <= v < 256 ^ sz
  | Pop => l <> []
  | Erase i => 0 <= i
  | At i => 0 <= i < Z.of_nat (List.length l)
  | Size | Capacity => True
  end.

Definition vstep (o : vop) (x : vstate) : vstate :=
  let (l, c) := x in
  match o with
  | Push v => (l ++ [v], if Z.of_nat (List.length l) <? c then c else if c =? 0 then 1 else 2 * c)
  | Pop => (removelast l, c)
  | Erase i => (remove_nth (Z.to_nat i) l, c)
  | At _ | Size | Capacity => (l, c)
  end.

Definition vanswer (o : vop) (x : vstate) : list Z :=
  let (l, c) := x in
  match o with
  | At i => [nth (Z.to_nat i) l 0]
  | Size => [Z.of_nat (List.length l)]
  | Capacity => [c]
  | _ => []
  end.

Fixpoint vallowed_all (sz : Z) (os : list vop) (x : vstate) : Prop :=
  match os with
  | [] => True
  | o :: r => vallowed sz o (fst x) /\ vallowed_all sz r (vstep o x)
  end.
Fixpoint vsteps (os : list vop) (x : vstate) : vstate :=
  match os with [] => x | o :: r => vsteps r (vstep o x) end.
Fixpoint vanswers (os : list vop) (x : vstate) : list Z :=
  match os with [] => [] | o :: r => vanswer o x ++ vanswers r (vstep o x) end.

(** The vector variable v (start of its block) holds x in state s: it is NULL
    and empty, or the start of a live block of its own of exactly the size of the
    two counters and capacity many elements. *)
Definition vholds (sz : Z) (s : st) (v : ptr) (x : vstate) : Prop :=
  let (l, c) := x in
  Z.of_nat (List.length l) <= c
  /\ match v with
     | None => l = [] /\ c = 0
     | Some q =>
         (exists a d, nth_error (objs s) q = Some (mkObj a (16 + c * sz) q true (CBytes d)))
         /\ 1 <= c /\ 16 + c * sz < 2 ^ 62
         /\ word_at s v 0 8 = Some (Z.of_nat (List.length l))
         /\ word_at s v 8 8 = Some c
         /\ (forall i w, nth_error l i = Some w ->
               word_at s v (16 + Z.of_nat i * sz) (Z.to_nat sz) = Some w)
     end.

(** Everything outside the block of the vector is as before. *)
Definition others_kept (v : ptr) (s s' : st) : Prop :=
  files s' = files s
  /\ (List.length (objs s) <= List.length (objs s'))%nat
  /\ forall k o, nth_error (objs s) k = Some o -> v <> Some (o_root o) ->
       nth_error (objs s') k = Some o.

(** Some push of os asks for a block of 2^62 bytes or more: 16 bytes of
    counters and the capacity after that push. *)
Definition asks_too_much (sz : Z) (os : list vop) (x : vstate) : Prop :=
  exists pre w post, os = pre ++ Push w :: post
    /\ 2 ^ 62 <= 16 + snd (vstep (Push w) (vsteps pre x)) * sz.
