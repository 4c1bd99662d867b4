(** * More concrete states for the examples. *)
From Verif Require Import Base SpecBase.
Open Scope Z_scope.

(** The two heap objects of a simple matrix whose header has index k. *)
Definition im_hdr (k : nat) (R C ty ch es : Z) : smat := mkSM R C ty ch es (Some (k + 1)%nat).
Definition im_objs (k : nat) (R C ty ch es : Z) (f : Z -> Z) : list obj :=
  [ mkObj (4096 + 65536 * Z.of_nat k) (32 + (R * C * es * ch + 64)) k true (CSM (im_hdr k R C ty ch es));
    mkObj (4160 + 65536 * Z.of_nat k) (R * C * es * ch) k true (CBytes f) ].

(** The three heap objects of a cube whose header has index k. *)
Definition hc_hdr (k : nat) (S L B ty : Z) (l : layout) : hmat :=
  mkHM S L B ty (tag_of l) [7; 0] (Some (k + 1)%nat) (Some (k + 2)%nat).
Definition hc_objs (k : nat) (S L B ty es : Z) (l : layout) (f g : Z -> Z) : list obj :=
  [ mkObj (4096 + 65536 * Z.of_nat k) 30000 k true (CHM (hc_hdr k S L B ty l));
    mkObj (4160 + 65536 * Z.of_nat k) (S * L * B * es) k true (CBytes f);
    mkObj (20544 + 65536 * Z.of_nat k) (B * 4) k true (CBytes g) ].

Ltac ex_image_tac :=
  constructor; cbn [im_hdr sm_rows sm_cols sm_type sm_chan sm_data]; try reflexivity; try lia;
  do 3 eexists; split; [reflexivity|]; split; [reflexivity|cbn; lia].
Ltac ex_cube_tac :=
  constructor; cbn [hc_hdr hm_samples hm_lines hm_bands hm_type hm_il hm_pad hm_data hm_wave];
  try reflexivity; try lia;
  [ cbn; auto
  | do 3 eexists; split; [reflexivity|]; split; [reflexivity|cbn; lia]
  | right; do 3 eexists; split; [reflexivity|]; split; [reflexivity|cbn; lia] ].
Ltac ex_heap_tac :=
  let i := fresh in let o := fresh in
  intros i o; cbn;
  repeat (destruct i as [|i]; [cbn; intros [= <-]; cbn; lia|cbn]);
  try (destruct i; discriminate).
