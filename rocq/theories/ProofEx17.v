(** * Concrete cases for the mean, spectrum and stretching properties. *)
From Verif Require Import Base ModelFloat ModelDouble ModelCore SpecBase SpecImage SpecImage2 SpecPixel SpecNum SpecMatrix SpecFilter
  SpecStat SpecSpectral Fixtures Fixtures2 ProofEx ProofEx6 ProofEx8.
From Verif Require Import ModelSpectral.
From Coq Require Import List Floats.SpecFloat Lia ZifyBool ZifyNat.
Import ListNotations.
Open Scope Z_scope.

Definition optz_eqb (x : option Z) (y : Z) : bool := match x with Some z => z =? y | None => false end.
Lemma optz_eqb_eq x y : optz_eqb x y = true -> x = Some y.
Proof. destruct x as [z|]; [|discriminate]. cbn. intro. f_equal. lia. Qed.

(** A float cube of S x L pixels and B bands with the words W, and n floats. *)
Definition st_sp (S L B : Z) (l : layout) (W : list Z) (n : Z) (V : list Z) : st :=
  mkSt (hc_objs 0 S L B 4 4 l (wordsn 4 W) (fun _ => 0) ++ [mkObj 1048576 (n * 4) 3 true (CBytes (wordsn 4 V))]) [].
Lemma st_sp_heap S L B l W n V : 0 <= n -> heap_ok (st_sp S L B l W n V).
Proof. intro Hn. ex_heap_tac. Qed.

(** ** Transposition: the element size of the destination is not looked at. *)
Definition st_tr (ty es : Z) : st :=
  mkSt (hc_objs 0 2 1 1 4 4 BSQ (fun i => i) (fun _ => 0) ++ hc_objs 3 1 2 1 ty es BSQ (fun i => 50 + i) (fun _ => 0)
        ++ hc_objs 6 2 1 1 ty es BSQ (fun i => 90 + i) (fun _ => 0)) [].
Lemma st_tr_ok : cube (st_tr 4 4) (Some 0%nat) (hc_hdr 0 2 1 1 4 BSQ) BSQ 4 /\ cube (st_tr 4 4) (Some 3%nat) (hc_hdr 3 1 2 1 4 BSQ) BSQ 4
  /\ cube (st_tr 4 4) (Some 6%nat) (hc_hdr 6 2 1 1 4 BSQ) BSQ 4.
Proof. split; [ex_cube_tac|split; ex_cube_tac]. Qed.
Theorem transport_bytes : exists e s d md p ms, env_ok e /\ heap_ok s /\ cube s p ms BSQ 4 /\ cube s d md BSQ 1
  /\ hm_samples md = hm_lines ms /\ hm_lines md = hm_samples ms /\ hm_bands md = hm_bands ms /\ hm_data md <> hm_data ms
  /\ hyper_mat_transport d p e s = UB.
Proof.
  exists ex_env, (st_tr 1 1), (Some 3%nat), (hc_hdr 3 1 2 1 1 BSQ), (Some 0%nat), (hc_hdr 0 2 1 1 4 BSQ).
  split; [exact ex_env_ok|]. split; [ex_heap_tac|]. split; [ex_cube_tac|]. split; [ex_cube_tac|].
  do 3 (split; [reflexivity|]). split; [cbn; congruence|]. vm_compute. reflexivity.
Qed.

(** ** Band mean: the element type of the cube is not looked at. *)
Definition st_mean (ty es : Z) : st :=
  mkSt (hc_objs 0 2 1 2 ty es BIP (wordsn 4 (fw [1; 3; 5; 7])) (fun _ => 0) ++ im_objs 3 1 2 4 1 4 (fun _ => 0)) [].
Lemma st_mean_ok : cube (st_mean 4 4) (Some 0%nat) (hc_hdr 0 2 1 2 4 BIP) BIP 4 /\ image (st_mean 4 4) (Some 3%nat) (im_hdr 3 1 2 4 1 4) 4.
Proof. split; [ex_cube_tac|ex_image_tac]. Qed.
Theorem mean_bytes : exists e s p m d md, env_ok e /\ heap_ok s /\ cube s p m BIP 1 /\ image s d md 4
  /\ sm_cols md = hm_samples m /\ sm_rows md = hm_lines m /\ hyper_mat_mean p d e s = UB.
Proof.
  exists ex_env, (st_mean 1 1), (Some 0%nat), (hc_hdr 0 2 1 2 1 BIP), (Some 3%nat), (im_hdr 3 1 2 4 1 4).
  split; [exact ex_env_ok|]. split; [ex_heap_tac|]. split; [ex_cube_tac|]. split; [ex_image_tac|].
  do 2 (split; [reflexivity|]). vm_compute. reflexivity.
Qed.

(** ** Angles *)
Definition fhalf : Z := bits_of_fl (fl_div (fl_of_Z 1) (fl_of_Z 2)).
Ltac words_tac :=
  let i := fresh in let H := fresh in
  intros i H; assert (i = 0 \/ i = 1) as [-> | ->] by lia; vm_compute; reflexivity.
(** Two halves with themselves: the angle of acos 0 (a right angle). *)
Theorem angle_halves : exists e s x W, elements_of s x 4 2 W /\ (forall i, 0 <= i < 2 -> sf_num (fl_of_bits (W i)) = Some (sf_one / 2))
  /\ forall acos_, spectral_angle_mapper acos_ x x 2 e s = Ret (fl_of_db (acos_ (db_of_Z 0))) s.
Proof.
  exists ex_env, (st_sp 1 1 1 BIP [0] 2 [fhalf; fhalf]), (Some 3%nat), (fun _ => fhalf).
  split; [words_tac|]. split; [words_tac|]. intro acos_. vm_compute. reflexivity.
Qed.
(** 64 and 1 with themselves: the quotient is above 1, where acos is not defined. *)
Theorem angle_above_one : exists e s x W q, elements_of s x 4 2 W
  /\ sf_num (fl_of_bits (W 0)) = Some (64 * sf_one) /\ sf_num (fl_of_bits (W 1)) = Some sf_one /\ SFltb (db_of_Z 1) q = true
  /\ forall acos_, spectral_angle_mapper acos_ x x 2 e s = Ret (fl_of_db (acos_ q)) s.
Proof.
  exists ex_env, (st_sp 1 1 1 BIP [0] 2 (fw [64; 1])), (Some 3%nat), (fun i => nth (Z.to_nat i) (fw [64; 1]) 0). eexists.
  split; [words_tac|]. split; [vm_compute; reflexivity|]. split; [vm_compute; reflexivity|].
  split; [|intro acos_; vm_compute; reflexivity]. vm_compute. reflexivity.
Qed.

(** ** Matching: the reference itself is left out and a spectrum at a right angle is marked. *)
Definition right_angle : sf := fl_div (fl_of_Z 3) (fl_of_Z 2).
Definition ex_acos (x : sf) : sf := if SFeqb x (db_of_Z 1) then db_of_Z 0 else db_of_fl right_angle.
Definition st_match : st := st_sp 2 1 2 BIP (fw [1; 0; 0; 1]) 2 (fw [1; 0]).
Lemma st_match_ok : cube st_match (Some 0%nat) (hc_hdr 0 2 1 2 4 BIP) BIP 4.
Proof. ex_cube_tac. Qed.
Theorem match_inverted : exists acos_ e s p m spectrum r s' mi, env_ok e /\ heap_ok s /\ cube s p m BIP 4 /\ hm_bands m = 2
  /\ acos_ (db_of_Z 1) = db_of_Z 0 /\ acos_ (db_of_Z 0) = db_of_fl right_angle
  /\ sample_word s m BIP 4 0 0 0 = word_at s spectrum 0 4 /\ sample_word s m BIP 4 0 0 1 = word_at s spectrum 4 4
  /\ sample_word s m BIP 4 0 1 0 = Some 0 /\ word_at s spectrum 4 4 = Some 0
  /\ spectrum_SAM_match acos_ p spectrum (fl_of_Z 1) e s = Ret r s' /\ sm_at s' r = Some mi
  /\ byte_at s' (sm_data mi) 0 = Some 0 /\ byte_at s' (sm_data mi) 1 = Some 1.
Proof.
  destruct (out_test (spectrum_SAM_match ex_acos (Some 0%nat) (Some 3%nat) (fl_of_Z 1) ex_env st_match)
    (fun r s => match sm_at s r with Some mi => optz_eqb (byte_at s (sm_data mi) 0) 0 && optz_eqb (byte_at s (sm_data mi) 1) 1 | None => false end)) as (r & s' & E & X);
    [vm_compute; reflexivity|].
  destruct (sm_at s' r) as [mi|] eqn:Hm; [|discriminate]. apply andb_prop in X as [X0 X1].
  exists ex_acos, ex_env, st_match, (Some 0%nat), (hc_hdr 0 2 1 2 4 BIP), (Some 3%nat), r, s', mi.
  split; [exact ex_env_ok|]. split; [apply st_sp_heap; lia|]. split; [exact st_match_ok|].
  split; [reflexivity|]. do 6 (split; [vm_compute; reflexivity|]). split; [exact E|]. split; [exact Hm|].
  split; now apply optz_eqb_eq.
Qed.

(** ** Sum of matrices of different width *)
Definition st_add : st := mkSt (im_objs 0 2 1 4 1 4 (wordsn 4 (fw [1; 2])) ++ im_objs 2 2 2 4 1 4 (wordsn 4 (fw [10; 20; 30; 40]))
  ++ im_objs 4 2 1 4 1 4 (fun _ => 0)) [].
Lemma st_add_ok : image st_add (Some 0%nat) (im_hdr 0 2 1 4 1 4) 4 /\ image st_add (Some 2%nat) (im_hdr 2 2 2 4 1 4) 4
  /\ image st_add (Some 4%nat) (im_hdr 4 2 1 4 1 4) 4.
Proof. split; [ex_image_tac|split; ex_image_tac]. Qed.
(** A column (1, 2) plus the two columns (10, 30) and (20, 40): the second row
    becomes 2 + 20, the element beside the first, not 2 + 30. *)
Theorem addition_widths : exists e s p1 m1 p2 m2 d md s', env_ok e /\ heap_ok s /\ image s p1 m1 4 /\ image s p2 m2 4 /\ image s d md 4
  /\ sm_rows m2 = sm_rows m1 /\ sm_cols m1 < sm_cols m2
  /\ word_at s (sm_data m1) (4 * (1 * sm_cols m1 + 0)) 4 = Some (bits_of_fl (fl_of_Z 2))
  /\ word_at s (sm_data m2) (4 * (1 * sm_cols m2 + 0)) 4 = Some (bits_of_fl (fl_of_Z 30))
  /\ simple_mat_addition_float p1 p2 d e s = Ret tt s'
  /\ word_at s' (sm_data md) (4 * (1 * sm_cols md + 0)) 4 = Some (bits_of_fl (fl_of_Z 22)).
Proof.
  destruct st_add_ok as (A & B & C).
  destruct (out_test (simple_mat_addition_float (Some 0%nat) (Some 2%nat) (Some 4%nat) ex_env st_add)
    (fun _ s => optz_eqb (word_at s (Some 5%nat) 4 4) (bits_of_fl (fl_of_Z 22)))) as ([] & s' & E & X); [vm_compute; reflexivity|].
  exists ex_env, st_add, (Some 0%nat), (im_hdr 0 2 1 4 1 4), (Some 2%nat), (im_hdr 2 2 2 4 1 4), (Some 4%nat), (im_hdr 4 2 1 4 1 4), s'.
  split; [exact ex_env_ok|]. split; [ex_heap_tac|]. split; [exact A|]. split; [exact B|]. split; [exact C|].
  split; [reflexivity|]. split; [cbn; lia|]. do 2 (split; [vm_compute; reflexivity|]).
  split; [exact E|]. now apply optz_eqb_eq.
Qed.

(** ** Stretching a cube of one band *)
Definition st_tens (W : list Z) : st :=
  mkSt (hc_objs 0 2 1 1 4 4 BSQ (wordsn 4 W) (fun _ => 0) ++ hc_objs 3 2 1 1 1 1 BSQ (fun i => 50 + i) (fun _ => 0)) [].
Lemma st_tens_ok W : cube (st_tens W) (Some 0%nat) (hc_hdr 0 2 1 1 4 BSQ) BSQ 4 /\ cube (st_tens W) (Some 3%nat) (hc_hdr 3 2 1 1 1 BSQ) BSQ 1.
Proof. split; ex_cube_tac. Qed.
