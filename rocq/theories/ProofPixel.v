(** * Proof machinery: 8-bit images as arrays of pixels. *)
From Verif Require Import Base Logic ModelCore SpecBase SpecCore SpecImage SpecImage2 SpecPixel ProofCore ProofLayout ProofHM ProofCopy ProofCore2 ProofImage3 ProofImage4.
From Coq Require Import String ZifyBool ZifyNat.
Ltac Zify.zify_post_hook ::= Z.div_mod_to_equations.
Open Scope Z_scope.

(** i*C*ch + j*ch + k as the C code computes it. *)
Lemma idx_c R C ch i j k : 0 <= i < R -> 0 <= j < C -> 0 <= k < ch -> R * C * ch <= 2147483647 ->
  (i * C * ch + j * ch + k)%C = Some ((i * C + j) * ch + k).
Proof.
  intros Hi Hj Hk Hn. pose proof (pix_index R C ch i j k Hi Hj Hk) as PI.
  assert (0 <= i * C) by nia. assert (0 <= j * ch) by nia. assert (i * C * ch <= (i * C + j) * ch) by nia.
  assert (i * C <= i * C * ch) by nia.
  unfold ci. rewrite (cmul_ok i C), (cmul_ok (i * C) ch), (cmul_ok j ch) by nia.
  rewrite (cadd_ok (i * C * ch)) by nia. rewrite cadd_ok by nia. f_equal. ring.
Qed.

(** i*C + j. *)
Lemma idx2_c R C i j : 0 <= i < R -> 0 <= j < C -> R * C <= 2147483647 ->
  (i * C + j)%C = Some (i * C + j).
Proof.
  intros Hi Hj Hn. assert (0 <= i * C + j < R * C) by nia. assert (0 <= i * C) by nia.
  unfold ci. rewrite (cmul_ok i C) by lia. apply cadd_ok. lia.
Qed.

Lemma size3_c R C ch : 0 < R -> 0 < C -> 0 < ch -> R * C * ch <= 2147483647 ->
  (R * C * ch)%C = Some (R * C * ch).
Proof.
  intros. assert (0 < R * C) by nia. assert (R * C <= R * C * ch) by nia.
  unfold ci. rewrite (cmul_ok R C) by lia. apply cmul_ok. lia.
Qed.

(** The pixels of an 8-bit image as an array. *)
Record pixels (s : st) (m : smat) (q : nat) (n : Z) (f : Z -> Z) : Prop := {
  px_data : sm_data m = Some q;
  px_isb : isb s q n f;
  px_R : 0 < sm_rows m; px_C : 0 < sm_cols m; px_ch : 0 < sm_chan m;
  px_n : sm_rows m * sm_cols m * sm_chan m <= n;
  px_max : sm_rows m * sm_cols m * sm_chan m + 96 <= 2147483647 }.

Lemma image_pixels s p m : image s p m 1 -> exists q n f, pixels s m q n f.
Proof.
  intros [Hh Hty HR HC Hch Hsz Hd]. rewrite Z.mul_1_r in *.
  apply readable_isb in Hd as (q & sz & f & E & H & N). exists q, sz, f. constructor; auto.
Qed.

Lemma pix_val s m q n f i j k : pixels s m q n f -> in_image m i j k ->
  pix s m i j k = Some (f ((i * sm_cols m + j) * sm_chan m + k) mod 256).
Proof.
  intros [D I R C ch N _] (Hi & Hj & Hk). unfold pix, pixel_byte. rewrite D, Z.mul_1_r, Z.add_0_r.
  apply (byte_at_isb _ _ _ _ _ I). pose proof (pix_index _ _ _ i j k Hi Hj Hk). lia.
Qed.

(** Coordinates of a position. *)
Lemma grid_cover R C ch x : 0 < C -> 0 < ch -> 0 <= x < R * C * ch ->
  exists i j k, 0 <= i < R /\ 0 <= j < C /\ 0 <= k < ch /\ x = (i * C + j) * ch + k.
Proof.
  intros HC Hch Hx. assert (0 <= x / ch < R * C) by nia. assert (0 <= x / ch / C < R) by nia.
  exists (x / ch / C), (x / ch mod C), (x mod ch). split; auto.
  split; [apply Z.mod_pos_bound; auto|]. split; [apply Z.mod_pos_bound; auto|].
  pose proof (Z.div_mod x ch ltac:(lia)). pose proof (Z.div_mod (x / ch) C ltac:(lia)). nia.
Qed.

(** A function of the coordinates as a function of the position. *)
Definition at_pos (C ch : Z) (v : Z -> Z -> Z -> Z) (x : Z) : Z := v (x / ch / C) (x / ch mod C) (x mod ch).

Lemma at_pos_eq C ch v i j k : 0 <= j < C -> 0 <= k < ch -> at_pos C ch v ((i * C + j) * ch + k) = v i j k.
Proof.
  intros Hj Hk. unfold at_pos. destruct (radix2 (i * C + j) k ch Hk) as [-> ->].
  now destruct (radix2 i j C Hj) as [-> ->].
Qed.

(** Two nested loops filling the pixels (i, j). *)
Lemma wr_grid e s0 q body R C ch spec : 0 < C -> 0 < ch ->
  (forall i j, 0 <= i < R -> 0 <= j < C ->
     wr e s0 q (body i j) (fun x => exists k, 0 <= k < ch /\ x = (i * C + j) * ch + k) spec) ->
  wr e s0 q (for_ 0 R (fun i => for_ 0 C (fun j => body i j))) (fun x => 0 <= x < R * C * ch) spec.
Proof.
  intros HC Hch H. eapply wr_iff.
  - apply wr_for. intros i Hi. apply wr_for. intros j Hj. apply H; auto.
  - intros x. cbv beta. split.
    + intros (i & Hi & j & Hj & k & Hk & ->). now apply pix_index.
    + intros Hx. destruct (grid_cover R C ch x) as (i & j & k & Hi & Hj & Hk & ->); auto.
      exists i. split; auto. exists j. split; auto. exists k. auto.
Qed.

Lemma wr_exit_k e s0 q m (P Q : Z -> Prop) spec : wr e s0 q m P spec -> (forall x, P x <-> Q x) -> wr e s0 q m Q spec.
Proof. exact (wr_iff e s0 q m P Q spec). Qed.

Lemma type_one ty : type_size ty = Some 1 <-> ty = 1.
Proof.
  split; [|intros ->; reflexivity]. unfold type_size. destruct (ty =? 1) eqn:?; [lia|].
  repeat match goal with |- context [if ?c then _ else _] => destruct c end; discriminate.
Qed.

(** A freshly created 8-bit image with known contents. *)
Lemma newsm_pixels e s R C ty ch f : 0 < R -> 0 < C -> 0 < ch -> R * C * ch + 96 <= 2147483647 ->
  pixels (newsm e s R C ty 1 ch f) (newsm_hdr s R C ty 1 ch) (List.length (objs s) + 1) (R * C * ch) f.
Proof.
  intros. constructor; cbn [newsm_hdr sm_rows sm_cols sm_chan sm_data]; auto; try lia.
  replace (R * C * ch) with (R * C * 1 * ch) by ring. apply newsm_data.
Qed.

Lemma newsm_picture e s R C ch f v : heap_ok s ->
  0 < R -> 0 < C -> 0 < ch -> R * C * ch + 96 <= 2147483647 ->
  (forall i j k, 0 <= i < R -> 0 <= j < C -> 0 <= k < ch ->
     v i j k = Some (f ((i * C + j) * ch + k) mod 256)) ->
  new_picture s R C ch v (newsm e s R C 1 1 ch f) (Some (List.length (objs s))).
Proof.
  intros Hs HR HC Hch Hn Hv. exists (newsm_hdr s R C 1 1 ch).
  split; [apply newsm_image; auto; lia|]. do 4 (split; [reflexivity|]).
  split; [|split; [eexists; split; [reflexivity|lia]|split; [eexists; split; [reflexivity|lia]|]]].
  - intros i j k Hin. rewrite (pix_val _ _ _ _ _ _ _ _ (newsm_pixels e s R C 1 ch f HR HC Hch Hn) Hin).
    destruct Hin as (Hi & Hj & Hk). cbn [newsm_hdr sm_rows sm_cols sm_chan] in *. now rewrite Hv.
  - split; [apply newsm_old_unchanged|]. split; [reflexivity|]. now apply newsm_heap_ok.
Qed.

(** Create an 8-bit image, then fill it with a computation that writes only it. *)
Lemma create_fill e s R C ch (fill : M unit) spec :
  env_ok e -> heap_ok s -> 0 < R -> 0 < C -> 0 < ch -> R * C * ch + 96 <= 2147483647 ->
  (forall dd, wr e (newsm e s R C 1 1 ch dd) (List.length (objs s) + 1) fill (fun x => 0 <= x < R * C * ch) spec) ->
  exists dd f, create_simple_mat R C 1 ch e s = Ret (Some (List.length (objs s))) (newsm e s R C 1 1 ch dd)
    /\ fill e (newsm e s R C 1 1 ch dd) = Ret tt (newsm e s R C 1 1 ch f)
    /\ forall x, 0 <= x < R * C * ch -> f x mod 256 = spec x.
Proof.
  intros He Hs HR HC Hch Hn W.
  destruct (create_sm_run e s R C 1 1 ch) as (dd & E & _); auto; try lia.
  destruct (wr_run _ _ _ _ _ _ _ _ (newsm_data e s R C 1 1 ch dd) (W dd)) as (f & E2 & A & _).
  exists dd, f. split; auto. split; auto. rewrite E2. f_equal. apply newsm_putd.
Qed.

(** In-place and out-of-place pixel maps: the loop over all positions that
    stores g(src[x]) into dst[x]. *)
Lemma map_positions e s ps pd ns nd fs fd (body : Z -> M unit) g N :
  isb s ps ns fs -> isb s pd nd fd -> 0 <= N -> N <= ns -> N <= nd ->
  (forall f x, 0 <= x < N -> body x e (putd s pd f) = store8 (Some pd) x (g (rd ps pd fs f x mod 256)) e (putd s pd f)) ->
  exists f', for_ 0 N body e s = Ret tt (putd s pd f')
    /\ (forall x, 0 <= x < N -> f' x mod 256 = g (fs x mod 256) mod 256)
    /\ (forall x, ~ 0 <= x < N -> f' x = fd x).
Proof.
  intros Is Id HN Hns Hnd Hb.
  assert (W : mapw e s pd (for_ 0 N body) (fun x => exists i, 0 <= i < N /\ x = i)
                (fun x v => g (rd ps pd fs (fun _ => v) x mod 256) mod 256)).
  { apply mapw_for with (P := fun i x => x = i); [|intros; lia]. intros i Hi f.
    destruct (mapw_store e s pd nd fd (Some pd) (g (rd ps pd fs f i mod 256)) f i
               (g (rd ps pd fs f i mod 256))
               (fun x v => g (rd ps pd fs (fun _ => v) x mod 256))) as (f' & X & A & B); auto; try lia.
    { cbv beta. unfold rd. destruct (Nat.eq_dec ps pd); rewrite ?Z.mod_mod by lia; auto. }
    exists f'. split; [rewrite Hb by auto; exact X|]. split; [intros p ->; exact A|auto]. }
  destruct (mapw_run _ _ _ _ _ _ _ _ Id W) as (f' & X & A & B).
  exists f'. split; auto. split.
  - intros x Hx. rewrite A by eauto. unfold rd. destruct (Nat.eq_dec ps pd) as [-> |]; auto.
    assert (fs = fd) as -> by (unfold isb in *; congruence). now rewrite Z.mod_mod by lia.
  - intros x Hx. apply B. intros (i & Hi & ->). auto.
Qed.

(** The same, as a statement about images of the same size. *)
Lemma map_image e s ms ps ns fs md pd nd fd body g :
  pixels s ms ps ns fs -> pixels s md pd nd fd ->
  sm_rows ms = sm_rows md -> sm_cols ms = sm_cols md -> sm_chan ms = sm_chan md ->
  (forall f x, 0 <= x < sm_rows md * sm_cols md * sm_chan md ->
     body x e (putd s pd f) = store8 (Some pd) x (g (rd ps pd fs f x mod 256)) e (putd s pd f)) ->
  exists s', for_ 0 (sm_rows md * sm_cols md * sm_chan md) body e s = Ret tt s'
    /\ mapped s ms md (fun x => g x mod 256) s' /\ written s (sm_data md) s'.
Proof.
  intros Ps Pd ER EC Ech Hb.
  assert (HN : 0 < sm_rows md * sm_cols md * sm_chan md).
  { pose proof (px_R _ _ _ _ _ Pd). pose proof (px_C _ _ _ _ _ Pd). pose proof (px_ch _ _ _ _ _ Pd).
    clear - H H0 H1. assert (0 < sm_rows md * sm_cols md) by nia. nia. }
  pose proof (px_n _ _ _ _ _ Ps) as N1. rewrite ER, EC, Ech in N1. pose proof (px_n _ _ _ _ _ Pd) as N2.
  destruct (map_positions e s ps pd ns nd fs fd body g (sm_rows md * sm_cols md * sm_chan md)
              (px_isb _ _ _ _ _ Ps) (px_isb _ _ _ _ _ Pd) (Z.lt_le_incl _ _ HN) N1 N2 Hb) as (f' & X & A & B).
  exists (putd s pd f'). split; auto. destruct Pd as [Dd Id Rd Cd Chd Nd Md].
  split; [|rewrite Dd; eapply written_putd; eauto]. split; [|split; [|rewrite Dd; apply only_written_putd]].
  - intros i j k Hin. exists (fs ((i * sm_cols md + j) * sm_chan md + k) mod 256). split.
    + rewrite (pix_val _ _ _ _ _ i j k Ps); [now rewrite EC, Ech|]. unfold in_image in *. rewrite ER, EC, Ech. auto.
    + assert (P' : pixels (putd s pd f') md pd nd f') by (constructor; auto; eapply isb_putd_eq; eauto).
      rewrite (pix_val _ _ _ _ _ i j k P' Hin). f_equal. apply A.
      destruct Hin as (Hi & Hj & Hk). now apply pix_index.
  - intros x Hx. rewrite Dd, (byte_at_putd_eq _ _ _ _ _ _ Id), (byte_at_isb_all _ _ _ _ _ Id).
    now rewrite B.
Qed.
