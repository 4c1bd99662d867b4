(** * Concrete states and files for the file properties. *)
From Verif Require Import Base Logic ModelCore ModelFloat ModelFile SpecBase SpecCore SpecPixel SpecNum SpecFile SpecHdr Fixtures Fixtures2 ProofEx ProofEx3
  ProofEx6 ProofCore ProofImage4 ProofBmp ProofFile ProofHdr ProofHdr2 ProofWave ProofSave ProofSave2 ProofSave3 ProofSave4 ProofRaw.
From Coq Require Import Floats.SpecFloat String Ascii Lia ZifyBool ZifyNat.
Ltac Zify.zify_post_hook ::= Z.div_mod_to_equations.
Open Scope Z_scope.

Definition name1 : path := chars "a".
Definition all_files : path -> bool := fun _ => true.

(** A picture of one pixel and one of two rows. *)
Definition st_dot : st := mkSt (im_objs 0 1 1 1 3 1 (wordsn 1 [1; 2; 3])) [].
Definition st_two : st := mkSt (im_objs 0 2 1 1 3 1 (wordsn 1 [1; 2; 3; 4; 5; 6])) [].
Definition st_grey2 : st := mkSt (im_objs 0 2 1 1 1 1 (wordsn 1 [1; 2])) [].
Lemma st_dot_ok : heap_ok st_dot /\ image st_dot (Some 0%nat) (im_hdr 0 1 1 1 3 1) 1 /\ bmp_small 1 1.
Proof. split; [ex_heap_tac|]. split; [ex_image_tac|vm_compute; intuition discriminate]. Qed.
Lemma st_two_ok : heap_ok st_two /\ image st_two (Some 0%nat) (im_hdr 0 2 1 1 3 1) 1 /\ bmp_small 2 1.
Proof. split; [ex_heap_tac|]. split; [ex_image_tac|vm_compute; intuition discriminate]. Qed.
Lemma st_grey2_ok : heap_ok st_grey2 /\ image st_grey2 (Some 0%nat) (im_hdr 0 2 1 1 1 1) 1 /\ bmp_small 2 1.
Proof. split; [ex_heap_tac|]. split; [ex_image_tac|vm_compute; intuition discriminate]. Qed.

Lemma write_middle_wrong : exists e s p m name can s' f, heap_ok s /\ image s p m 1 /\ sm_chan m = 3 /\ bmp_small (sm_rows m) (sm_cols m)
  /\ smwrite_bmp can (Some name) p e s = Ret tt s' /\ file_of s' name = Some f
  /\ ~ bmp_shows f (sm_rows m) (sm_cols m) (pix s m) 0.
Proof.
  destruct st_dot_ok as (A & B & C).
  destruct (write_middle ex_env st_dot (Some 0%nat) _ name1 all_files A B eq_refl C eq_refl) as (s' & f & E & F & P).
  exists ex_env, st_dot, (Some 0%nat), (im_hdr 0 1 1 1 3 1), name1, all_files, s', f.
  split; [exact A|]. split; [exact B|]. split; [reflexivity|]. split; [exact C|]. split; [exact E|]. split; [exact F|].
  intros Sh. specialize (Sh 0 0 ltac:(cbn; lia) ltac:(lia)). rewrite (P 0 0 0) in Sh by (cbn; lia). vm_compute in Sh. discriminate Sh.
Qed.

Lemma write_changes : exists e s p m name can s' i j k, heap_ok s /\ image s p m 1 /\ in_image m i j k
  /\ smwrite_bmp can (Some name) p e s = Ret tt s' /\ pix s' m i j k <> pix s m i j k.
Proof.
  destruct st_two_ok as (A & B & C).
  destruct (write_effect ex_env st_two (Some 0%nat) _ name1 all_files A B eq_refl C eq_refl) as (s' & E & _ & _ & P).
  exists ex_env, st_two, (Some 0%nat), (im_hdr 0 2 1 1 3 1), name1, all_files, s', 0, 0, 0.
  split; [exact A|]. split; [exact B|]. assert (IN : in_image (im_hdr 0 2 1 1 3 1) 0 0 0) by (unfold in_image; cbn; lia).
  split; [exact IN|]. split; [exact E|]. rewrite (P 0 0 0 IN). vm_compute. discriminate.
Qed.

(** Cubes: two samples, one line, one band; with and without wavelengths. *)
Definition cube_hdr (w : ptr) : hmat := mkHM 2 1 1 1 (tag_of BIL) [7; 0] (Some 1%nat) w.
Definition st_save (w : ptr) (g : Z -> Z) : st :=
  mkSt [ mkObj 4096 30000 0 true (CHM (cube_hdr w)); mkObj 4160 2 0 true (CBytes (wordsn 1 [200; 9])); mkObj 20544 4 0 true (CBytes g) ] [].
Definition st_plain : st := st_save None (fun _ => 0).
Definition st_waves : st := st_save (Some 2%nat) (wordsn 4 [bits_of_fl (fl_of_Z 650)]).
Lemma st_plain_ok : heap_ok st_plain /\ cube st_plain (Some 0%nat) (cube_hdr None) BIL 1.
Proof.
  split; [ex_heap_tac|]. constructor; cbn; try reflexivity; try lia; try (cbn; auto; fail).
  do 3 eexists; split; [reflexivity|]; split; [reflexivity|cbn; lia].
Qed.
Lemma st_waves_ok : heap_ok st_waves /\ cube st_waves (Some 0%nat) (cube_hdr (Some 2%nat)) BIL 1
  /\ ordinary_waves st_waves (Some 2%nat) 1.
Proof.
  split; [ex_heap_tac|]. split.
  - constructor; cbn; try reflexivity; try lia; try (cbn; auto; fail).
    + do 3 eexists; split; [reflexivity|]; split; [reflexivity|cbn; lia].
    + right. do 3 eexists; split; [reflexivity|]; split; [reflexivity|cbn; lia].
  - intros i w Hi. replace i with 0 by lia. assert (E : word_at st_waves (Some 2%nat) (4 * 0) 4 = Some (bits_of_fl (fl_of_Z 650))) by (vm_compute; reflexivity).
    rewrite E. intros [= <-]. vm_compute. discriminate.
Qed.
Definition env0 : env := mkEnv (e_addr ex_env) (fun _ _ => 0).
Definition env1 : env := mkEnv (e_addr ex_env) (fun _ _ => 1).
Lemma env01_ok : env_ok env0 /\ (forall k i, e_junk env0 k i = 0) /\ env_ok env1 /\ (forall k i, e_junk env1 k i mod 256 <> 0).
Proof. repeat split; try exact (fun k => ex_env_ok k); try apply ex_env_ok. cbn. intros. vm_compute. discriminate. Qed.

(** A header. *)
Definition lines_a : list (list Z) :=
  [text "ENVI" ++ [10]; text "description = {x}" ++ [10]; text "samples = 640" ++ [10]; text "lines   = 480" ++ [10]; text "bands =  3" ++ [10]; text "data type = 12" ++ [10]].
Definition fields_a : list hfield := [Unrelated; Unrelated; Samples 640; Lines 480; Bands 3; DataType 12].
Definition line_b : list Z := text "interleave = bil" ++ [10].
Definition line_c : list Z := text "byte order = 0" ++ [10].
Definition line_ign : list Z := text "data ignore value = 0" ++ [10].

Lemma fields_a_ok : Forall2 states fields_a lines_a /\ Forall (fun f => ~ is_interleave f) fields_a /\ Forall header_line lines_a
  /\ states (Interleave 98 105 108) line_b /\ header_line line_b /\ states Unrelated line_c /\ header_line line_c
  /\ number_line "data ignore value" 0 line_ign /\ header_line line_ign.
Proof.
  assert (NB : forall key more blanks ds, ~ In 61 (text more) -> Forall (fun c => c = 32 \/ c = 9) blanks -> ds <> [] -> Forall digit ds ->
    -2147483648 <= place_value ds <= 2147483647 -> number_line key (place_value ds) (text key ++ text more ++ [61] ++ blanks ++ ds ++ [10])).
  { intros key more blanks ds H1 H2 H3 H4 H5. exists (text more), blanks, ds, []. split; [reflexivity|]. split; [exact H1|]. split; [exact H2|].
    split; [exists ds; auto|]. split; [exact H5|discriminate]. }
  assert (HD : forall l, forallb (fun c => (10 <? c) && (c <? 256)) l = true -> (List.length l <= 50)%nat -> header_line (l ++ [10])).
  { intros l H Hl. rewrite forallb_forall in H. apply plain_line; [intros X; specialize (H _ X); lia|apply Forall_forall; intros c Hc; specialize (H _ Hc); lia|lia]. }
  split; [|split; [repeat constructor; cbn; tauto|split; [|split; [|split; [|split; [|split; [|split]]]]]]].
  - unfold fields_a, lines_a. constructor; [|constructor; [|constructor; [|constructor; [|constructor; [|constructor; [|constructor]]]]]].
    + exists (text "ENVI"), []. split; [reflexivity|]. split; [cbn; intuition lia|]. split; [auto|]. repeat split; dat 0%nat.
    + exists (text "description "), (text "= {x}"). split; [reflexivity|]. split; [cbn; intuition lia|]. split; [right; eexists; reflexivity|].
      repeat split; try dat 0%nat. dat 1%nat.
    + apply (NB "samples"%string " "%string [32] [54; 52; 48]); [cbn; intuition lia|repeat constructor|discriminate|repeat constructor; unfold digit; lia|cbn; lia].
    + apply (NB "lines"%string "   "%string [32] [52; 56; 48]); [cbn; intuition lia|repeat constructor|discriminate|repeat constructor; unfold digit; lia|cbn; lia].
    + apply (NB "bands"%string " "%string [32; 32] [51]); [cbn; intuition lia|repeat constructor|discriminate|repeat constructor; unfold digit; lia|cbn; lia].
    + apply (NB "data type"%string " "%string [32] [49; 50]); [cbn; intuition lia|repeat constructor|discriminate|repeat constructor; unfold digit; lia|cbn; lia].
  - unfold lines_a. repeat (constructor; [apply HD; [reflexivity|cbn; lia]|]). constructor.
  - exists (text " "), []. split; [reflexivity|]. split; [cbn; intuition lia|lia].
  - apply HD; [reflexivity|cbn; lia].
  - exists (text "byte order "), (text "= 0"). split; [reflexivity|]. split; [cbn; intuition lia|]. split; [right; eexists; reflexivity|].
    repeat split; try dat 0%nat. dat 1%nat.
  - apply HD; [reflexivity|cbn; lia].
  - apply (NB "data ignore value"%string " "%string [32] [48]); [cbn; intuition lia|repeat constructor|discriminate|repeat constructor; unfold digit; lia|cbn; lia].
  - apply HD; [reflexivity|cbn; lia].
Qed.

(** A buffer for the tag; a list of two wavelengths, with and without brace. *)
Definition st_tag : st := mkSt [mkObj 4096 3 0 true (CBytes (fun _ => 7))] [].
Definition tok_a : tok := mkTok [] (text "650.5") [].
Definition tok_b : tok := mkTok [32] (text "700") [32].
Definition st_list (c : Z) : st :=
  mkSt [mkObj 4096 40 0 true (CBytes (fun i => nth (Z.to_nat i) (comma_list [tok_a] ++ tok_text tok_b ++ [c]) 0)); mkObj 4160 8 1 true (CBytes (fun _ => 7))] [].
Lemma toks_ok2 : Forall token ([tok_a] ++ [tok_b]).
Proof.
  constructor; [|constructor; [|constructor]].
  - split; [constructor|]. split; [cbn; repeat (constructor; [unfold word_char; lia|]); constructor|]. split; [discriminate|]. split; [constructor|cbn; lia].
  - split; [repeat constructor|]. split; [cbn; repeat (constructor; [unfold word_char; lia|]); constructor|]. split; [discriminate|]. split; [repeat constructor|cbn; lia].
Qed.
Lemma st_list_starts c : 0 <= c < 256 -> starts_with (st_list c) (Some 0%nat) (comma_list [tok_a] ++ tok_text tok_b ++ [c]).
Proof.
  intros Hc i Hi. change (List.length (comma_list [tok_a] ++ tok_text tok_b ++ [c])) with 12%nat in Hi.
  do 11 (destruct i as [|i]; [vm_compute; reflexivity|]). destruct i as [|i]; [|lia].
  transitivity (Some (c mod 256)); [vm_compute; reflexivity|]. rewrite Z.mod_small by lia. reflexivity.
Qed.
Lemma st_list_ok c : heap_ok (st_list c) /\ readable (st_list c) (Some 1%nat) 8 /\ byte_at (st_list c) (Some 0%nat) 20 = Some 0.
Proof. split; [ex_heap_tac|]. split; [do 3 eexists; split; [reflexivity|]; split; [reflexivity|cbn; lia]|reflexivity]. Qed.

(** A raw file of two bytes. *)
Definition st_raw : st := mkSt [] [(name1, [200; 9])].
Lemma st_raw_ok : heap_ok st_raw /\ file_of st_raw name1 = Some [200; 9] /\ (forall x, In x [200; 9] -> 0 <= x < 256).
Proof. split; [intros i o; destruct i; discriminate|]. split; [reflexivity|]. cbn. intuition lia. Qed.

(** A file of one pixel: blue 1, green 2, red 3. *)
Definition dot_file : list Z :=
  [66; 77; 58; 0; 0; 0; 0; 0; 0; 0; 54; 0; 0; 0;
   40; 0; 0; 0; 1; 0; 0; 0; 1; 0; 0; 0; 1; 0; 24; 0; 0; 0; 0; 0; 4; 0; 0; 0; 0; 0; 0; 0; 0; 0; 0; 0; 0; 0; 0; 0; 0; 0; 0; 0; 1; 2; 3; 0].
Lemma dot_file_ok : bmp_header dot_file 1 1 /\ bmp_small 1 1 /\ (forall x, In x dot_file -> 0 <= x < 256).
Proof.
  split.
  { unfold bmp_header. repeat split; try (vm_compute; reflexivity);
      (intros t Ht; change (Z.of_nat 2) with 2 in Ht; change (Z.of_nat 4) with 4 in Ht;
       first [assert (D : t = 0 \/ t = 1) by lia | assert (D : t = 0 \/ t = 1 \/ t = 2 \/ t = 3) by lia];
       repeat (destruct D as [D|D]; [subst t; vm_compute; reflexivity|]); subst t; vm_compute; reflexivity). }
  split; [unfold bmp_small, bmp_stride; vm_compute; intuition discriminate|].
  apply Forall_forall. unfold dot_file. repeat (constructor; [lia|]). constructor.
Qed.
Lemma read_middle_wrong : exists e s path f R C p' s', env_ok e /\ heap_ok s /\ file_of s path = Some f /\ bmp_header f R C
  /\ smread_bmp (Some path) e s = Ret p' s'
  /\ ~ new_picture s R C 3 (fun i j k => bmp_pixel f R C i j (2 - k)) s' p'.
Proof.
  destruct dot_file_ok as (A & B & C). set (s := mkSt [] [(name1, dot_file)]).
  assert (Hs : heap_ok s) by (intros i o; destruct i; discriminate).
  assert (Hf : file_of s name1 = Some dot_file) by reflexivity.
  destruct (bmp_read_standard ex_env s name1 dot_file 1 1 ex_env_ok Hs Hf A ltac:(lia) ltac:(lia) B C) as (p' & s' & E & m1 & I1 & R1 & C1 & T1 & H1 & V1 & _).
  exists ex_env, s, name1, dot_file, 1, 1, p', s'. split; [exact ex_env_ok|]. split; [exact Hs|]. split; [exact Hf|]. split; [exact A|]. split; [exact E|].
  intros (m2 & I2 & R2 & C2 & T2 & H2 & V2 & _). destruct I1 as [D1 _ _ _ _ _ _]. destruct I2 as [D2 _ _ _ _ _ _]. rewrite D1 in D2. injection D2 as <-.
  assert (IN : in_image m1 0 0 0) by (unfold in_image; rewrite R1, C1, H1; lia).
  specialize (V1 0 0 0 IN). specialize (V2 0 0 0 IN). rewrite V2 in V1. vm_compute in V1. discriminate V1.
Qed.
