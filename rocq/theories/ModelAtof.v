(** * Model of hypercv_atof (process/src/c_src/datatypechange.c 393-455).

    The characters are read from the heap byte by byte.  [pw n] is the result of
    pow(10, n), a parameter.  isdigit of a byte above 127 is taken to be false. *)
From Verif Require Import Base ModelFloat.
From Coq Require Import Floats.SpecFloat.
Open Scope Z_scope.

Definition isdigit (c : Z) : bool := (48 <=? c) && (c <=? 57).
Definition is_e (c : Z) : bool := (c =? 101) || (c =? 69).

Section Atof.
Variable pw : Z -> sf.

(** 397: while( *p == ' ')++p; *)
Fixpoint skip_blanks (fuel : nat) (p : ptr) (i : Z) : M Z :=
  match fuel with
  | O => fuel_
  | S n => c <- load8 p i ;; if c =? 32 then skip_blanks n p (i + 1) else ret i
  end.

(** 398-405: the sign and the position after it. *)
Definition read_sign (p : ptr) (i : Z) : M (Z * Z) :=
  c <- load8 p i ;;
  if c =? 45 then ret (-1, i + 1)
  else if c =? 43 then ret (1, i + 1)
  else ret (1, i).

(** 412: integerPart = 10 * integerPart + *p - '0', all in float. *)
Definition int_step (ip : sf) (c : Z) : sf :=
  fl_sub (fl_add (fl_mul (fl_of_Z 10) ip) (fl_of_Z c)) (fl_of_Z 48).

(** 409-427: the first loop.  [inl]: the return statement of line 426; [inr]:
    position, integerPart, hasDot, hasE after the loop. *)
Fixpoint part1 (fuel : nat) (p : ptr) (i : Z) (ip : sf) : M (sf + (Z * sf * bool * bool)) :=
  match fuel with
  | O => fuel_
  | S n =>
      c <- load8 p i ;;
      if c =? 0 then ret (inr (i, ip, false, false))
      else if isdigit c then part1 n p (i + 1) (int_step ip c)
      else if c =? 46 then ret (inr (i + 1, ip, true, false))
      else if is_e c then ret (inr (i + 1, ip, false, true))
      else ret (inl ip)
  end.

(** 435: decimalPart += ( *p - '0') / pow(10, decimalDigits++). *)
Definition dec_step (dp : sf) (c dd : Z) : sf :=
  fl_of_db (db_add (db_of_fl dp) (db_div (db_of_Z (c - 48)) (pw dd))).

(** 432-447: the second loop: position, integerPart, decimalPart, exponential,
    hasE. *)
Fixpoint part2 (fuel : nat) (p : ptr) (i : Z) (ip dp : sf) (dd ex : Z) (dot hasE : bool)
    : M (Z * sf * sf * Z * bool) :=
  match fuel with
  | O => fuel_
  | S n =>
      c <- load8 p i ;;
      if c =? 0 then ret (i, ip, dp, ex, hasE)
      else if dot && isdigit c then
        dd' <- ev (dd + 1)%C ;; part2 n p (i + 1) ip (dec_step dp c dd) dd' ex dot hasE
      else if dot && is_e c then ret (i + 1, fl_add ip dp, fl_of_Z 0, ex, true)
      else if hasE && isdigit c then
        ex' <- ev (10 * ex + c - 48)%C ;; part2 n p (i + 1) ip dp dd ex' dot hasE
      else ret (i, ip, dp, ex, hasE)
  end.

(** 449-452: the digits of the rest of the text. *)
Fixpoint part3 (fuel : nat) (p : ptr) (i ex : Z) : M Z :=
  match fuel with
  | O => fuel_
  | S n =>
      c <- load8 p i ;;
      if c =? 0 then ret ex
      else if isdigit c then
        ex' <- ev (10 * ex + c - 48)%C ;; part3 n p (i + 1) ex'
      else part3 n p (i + 1) ex
  end.

(** 393-455.  The fuel, the number of bytes of the block and one, never runs
    out: each step of a loop reads the next byte of the block. *)
Definition hypercv_atof (str : ptr) : M sf := fun e s =>
  match bytes_at s str with
  | None => UB
  | Some (_, size, _) =>
      let fuel := S (Z.to_nat size) in
      (i <- skip_blanks fuel str 0 ;;
       si <- read_sign str i ;;
       r <- part1 fuel str (snd si) (fl_of_Z 0) ;;
       match r with
       | inl ip => ret ip
       | inr (i, ip, dot, hasE) =>
           r <- part2 fuel str i ip (fl_of_Z 0) 1 0 dot hasE ;;
           match r with
           | (i, ip, dp, ex, hasE) =>
               ex <- (if hasE && dot then part3 fuel str i ex else ret ex) ;;
               ret (fl_of_db (db_mul (db_of_Z (fst si))
                      (db_add (db_mul (db_of_fl ip) (pw ex)) (db_of_fl dp))))
           end
       end) e s
  end.
End Atof.
