(** * Property C63: decimal literals. *)
From Coq Require Import String.
From Verif Require Import Base ModelFloat ModelAtof SpecBase SpecNum SpecAtof SpecHdr Fixtures ProofAtof ProofAtof2 ProofAtof3 ProofEx12.
From Coq Require Import List Floats.SpecFloat.
Open Scope Z_scope.

(** C63, integers with an optional exponent: the float nearest to the value.  Missing: see the refuted forms; more than 24 bits. *)
Theorem C63_integer_partial : forall pw e s p n g l x,
  digits l -> l <> [] -> digits (exp_digits x) -> c_string s p (head_text n g l ++ exp_text x) ->
  dec_value l <= 16777168 -> dec_value (exp_digits x) <= 2147483599 ->
  dec_value l * 10 ^ dec_value (exp_digits x) <= 9007199254740992 -> pow_exact pw (dec_value (exp_digits x)) ->
  exists v, hypercv_atof pw p e s = Ret v s /\ denotes v (sign_of g * (dec_value l * 10 ^ dec_value (exp_digits x))).
Proof. exact atof_integer. Qed.
Print Assumptions C63_integer_partial.
(** Literals with a point: within 2^(b-24) and 2^-24 for each digit and one more, if the integer part is below 2^b. *)
Theorem C63_fraction_partial : forall pw e s p n g l f b,
  digits l -> l <> [] -> digits f -> c_string s p (head_text n g l ++ 46 :: digit_text f) ->
  (length f <= 22)%nat -> dec_value l <= 16777168 -> 1 <= b <= 24 -> dec_value l < 2 ^ b ->
  (forall j, 0 <= j <= Z.of_nat (length f) -> pow_exact pw j) ->
  exists v N, hypercv_atof pw p e s = Ret v s /\ fl_ok v /\ sf_num v = Some N
    /\ 2 ^ 24 * Z.abs (10 ^ Z.of_nat (length f) * N - sign_of g * (dec_value l * 10 ^ Z.of_nat (length f) + dec_value f) * sf_one)
       <= 10 ^ Z.of_nat (length f) * sf_one * (2 ^ b + Z.of_nat (length f) + 1).
Proof. exact atof_fraction. Qed.
Print Assumptions C63_fraction_partial.
(** A point and an exponent: the same bound times the power, and 2^(c-24) for the last two roundings, if the value is below 2^c.
    The sign g2 of the exponent is accepted and ignored, so this is the right value only without a minus sign
    (see the refuted form below for what a minus sign does). *)
Theorem C63_fraction_exponent_partial : forall pw e s p n g l f bb g2 x b c,
  digits l -> l <> [] -> digits f -> digits x ->
  c_string s p (head_text n g l ++ 46 :: digit_text f ++ (if bb : bool then 69 else 101) :: sign_text g2 ++ digit_text x) ->
  (length f <= 22)%nat -> dec_value l <= 16777168 -> 1 <= b <= 24 -> dec_value l < 2 ^ b ->
  (forall j, 0 <= j <= Z.of_nat (length f) -> pow_exact pw j) -> pow_exact pw (dec_value x) ->
  2 ^ (b + 1) * 10 ^ dec_value x <= 2 ^ c -> c <= 127 ->
  exists v N, hypercv_atof pw p e s = Ret v s /\ fl_ok v /\ sf_num v = Some N
    /\ 2 ^ 24 * Z.abs (10 ^ Z.of_nat (length f) * N - sign_of g * ((dec_value l * 10 ^ Z.of_nat (length f) + dec_value f) * 10 ^ dec_value x) * sf_one)
       <= 10 ^ Z.of_nat (length f) * sf_one * (10 ^ dec_value x * (2 ^ b + Z.of_nat (length f) + 1) + 2 ^ c).
Proof. exact atof_fraction_exp. Qed.
Print Assumptions C63_fraction_exponent_partial.
Example C63_hypotheses_fraction_exponent : digits [1; 2] /\ digits [7; 5] /\ digits [3]
  /\ c_string (st_text (text "-12.75e+3")) (Some 0%nat) (head_text 0 (Some true) [1; 2] ++ 46 :: digit_text [7; 5] ++ 101 :: sign_text (Some false) ++ digit_text [3])
  /\ (forall j, 0 <= j <= 2 -> pow_exact pw10 j) /\ pow_exact pw10 3 /\ dec_value [1; 2] < 2 ^ 4 /\ 2 ^ (4 + 1) * 10 ^ dec_value [3] <= 2 ^ 15.
Proof.
  split; [intros d [<-|[<-|[]]]; split; discriminate|]. split; [intros d [<-|[<-|[]]]; split; discriminate|]. split; [intros d [<-|[]]; split; discriminate|].
  split; [apply st_text_holds; apply Forall_forall; repeat (constructor; [split; [discriminate|reflexivity]|]); constructor|].
  split; [intros j [H1 H2]; apply pw10_exact; split; [exact H1|apply Z.le_trans with 2; [exact H2|discriminate]]|].
  split; [apply pw10_exact; split; discriminate|]. split; [reflexivity|discriminate].
Qed.
(** A negative exponent is ignored: 1e-3 is 1 ... *)
Theorem C63_minus_exponent_refuted : forall pw e s p n g l b r,
  digits l -> l <> [] -> c_string s p (head_text n g l ++ (if b : bool then 69 else 101) :: 45 :: r) ->
  dec_value l <= 16777168 -> pow_exact pw 0 ->
  exists v, hypercv_atof pw p e s = Ret v s /\ denotes v (sign_of g * dec_value l).
Proof. exact atof_minus_exponent. Qed.
Print Assumptions C63_minus_exponent_refuted.
(** ... and after a fraction its sign is ignored: 1.5e-1 is 15. *)
Theorem C63_fraction_exponent_refuted : forall pw, pow_exact pw 1 -> exists e s p v,
  c_string s p (text "1.5e-1") /\ hypercv_atof pw p e s = Ret v s /\ denotes v 15.
Proof. exact fraction_minus_exponent. Qed.
Print Assumptions C63_fraction_exponent_refuted.
(** If anything follows the digits, a blank for example, the sign is lost. *)
Theorem C63_sign_refuted : forall pw e s p n g l c r,
  digits l -> l <> [] -> c_string s p (head_text n g l ++ c :: r) ->
  dec_value l <= 16777168 -> c <> 0 -> ~ 48 <= c <= 57 -> c <> 46 -> c <> 69 -> c <> 101 ->
  exists v, hypercv_atof pw p e s = Ret v s /\ denotes v (dec_value l).
Proof. exact atof_sign_lost. Qed.
Print Assumptions C63_sign_refuted.
Example C63_hypotheses : digits [4; 2] /\ c_string (st_text (text "  -42E1")) (Some 0%nat) (head_text 2 (Some true) [4; 2] ++ exp_text (Some (true, [1])))
  /\ pow_exact pw10 1.
Proof.
  split; [intros d [<-|[<-|[]]]; split; discriminate|]. split; [|apply pw10_exact; split; discriminate].
  apply st_text_holds. apply Forall_forall. repeat (constructor; [split; [discriminate|reflexivity]|]). constructor.
Qed.
Example C63_run : map (fun t => match hypercv_atof pw10 (Some 0%nat) ex_env (st_text (text t)) with Ret v _ => sf_num (fl_mul v (fl_of_Z 8)) | _ => None end)
    ["  -42E1"; "+7.625"; "1e-3"; "-5 "]%string = map (fun z => Some (z * sf_one)) [-3360; 61; 8; 40].
Proof. vm_compute. reflexivity. Qed.
