(** * Proofs: saving and reloading cubes. *)
From Verif Require Import Base Logic ModelFloat ModelCore ModelPixel ModelFile SpecBase SpecCore SpecNum SpecFile SpecHdr ProofCore ProofLayout ProofHM ProofCopy ProofCore2 ProofImage4 ProofWord ProofArr ProofFlip ProofBmp ProofHdr ProofHdr2 ProofWave.
From Coq Require Import Floats.SpecFloat String Ascii ZifyBool ZifyNat.
Ltac Zify.zify_post_hook ::= Z.div_mod_to_equations.
Open Scope Z_scope.

(** ** Printing ints *)

Lemma place_snoc l c : place_value (l ++ [c]) = 10 * place_value l + (c - 48).
Proof.
  rewrite <- !digits_value_place. unfold digits_value. rewrite fold_left_app. reflexivity.
Qed.

Lemma dec_go_ok f : forall n acc, (1 <= f)%nat -> 0 <= n < 2 ^ Z.of_nat f ->
  exists ds, dec_go f n acc = ds ++ acc /\ ds <> [] /\ Forall digit ds /\ place_value ds = n /\ (List.length ds <= f)%nat.
Proof.
  induction f as [|f IH]; intros n acc Hf Hn; [lia|]. cbn [dec_go]. destruct (Z.ltb_spec n 10) as [H|H].
  - exists [48 + n]. split; [reflexivity|]. split; [discriminate|]. split; [constructor; [unfold digit; lia|constructor]|].
    split; [|cbn; lia]. cbn [place_value List.length]. change (10 ^ Z.of_nat 0) with 1. lia.
  - replace (Z.of_nat (S f)) with (Z.succ (Z.of_nat f)) in Hn by lia. rewrite Z.pow_succ_r in Hn by lia.
    destruct f as [|f]; [change (2 ^ Z.of_nat 0) with 1 in Hn; lia|].
    destruct (IH (n / 10) ((48 + n mod 10) :: acc)) as (ds & E & Hne & Fd & Hv & Hl); [lia|lia|].
    exists (ds ++ [48 + n mod 10]). split; [rewrite E, <- app_assoc; reflexivity|]. split; [destruct ds; discriminate|].
    split; [apply Forall_app; split; [auto|constructor; [unfold digit; lia|constructor]]|].
    split; [rewrite place_snoc, Hv; lia|]. rewrite app_length. cbn. lia.
Qed.

Lemma dec_ok n : 0 <= n <= 2147483648 -> exists ds, ModelFile.dec n = ds /\ ds <> [] /\ Forall digit ds /\ place_value ds = n /\ (List.length ds <= 32)%nat.
Proof.
  intros H. unfold ModelFile.dec. set (f := S (Z.to_nat (Z.log2 n))).
  assert (Hl : Z.log2 n <= 31) by (change 31 with (Z.log2 2147483648); apply Z.log2_le_mono; lia).
  pose proof (Z.log2_nonneg n) as Hl0.
  destruct (dec_go_ok f n []) as (ds & E & Hne & Fd & Hv & Hlen); [lia| |].
  - replace (Z.of_nat f) with (Z.succ (Z.log2 n)) by lia. destruct (Z.eq_dec n 0) as [->|Hn]; [cbn; lia|]. pose proof (Z.log2_spec n ltac:(lia)). lia.
  - exists ds. rewrite app_nil_r in E. repeat split; auto. lia.
Qed.

Lemma print_d_ok z : -2147483648 <= z <= 2147483647 ->
  decimal (print_d z) z /\ (List.length (print_d z) <= 33)%nat /\ Forall (fun c => 45 <= c <= 57) (print_d z).
Proof.
  intros H. unfold print_d. destruct (Z.ltb_spec z 0) as [Hz|Hz].
  - destruct (dec_ok (- z) ltac:(lia)) as (ds & -> & Hne & Fd & Hv & Hl). split; [|split].
    + exists ds. repeat split; auto. right. split; [reflexivity|lia].
    + cbn. lia.
    + constructor; [lia|]. eapply Forall_impl; [|exact Fd]. unfold digit. intros; lia.
  - destruct (dec_ok z ltac:(lia)) as (ds & -> & Hne & Fd & Hv & Hl). split; [|split].
    + exists ds. repeat split; auto.
    + lia.
    + eapply Forall_impl; [|exact Fd]. unfold digit. intros; lia.
Qed.

(** ** The lines written *)

Definition int_text (key : string) (z : Z) : list Z := chars key ++ print_d z ++ [10].

Lemma plain_line l : ~ In 10 l -> Forall (fun c => 0 < c < 256) l -> Z.of_nat (List.length l) < 9999 -> header_line (l ++ [10]).
Proof. intros H1 H2 H3. exists l. rewrite app_length. cbn. repeat split; auto. lia. Qed.

Lemma int_text_line key z : -2147483648 <= z <= 2147483647 -> Forall (fun c => 10 < c < 256) (chars key) ->
  (List.length (chars key) <= 50)%nat -> header_line (int_text key z).
Proof.
  intros Hz Hk Hl. destruct (print_d_ok z Hz) as (_ & Hd & F). unfold int_text. rewrite app_assoc. apply plain_line.
  - intros X. rewrite Forall_forall in Hk, F. apply in_app_or in X as [X|X]; [apply Hk in X|apply F in X]; lia.
  - apply Forall_app. split; (eapply Forall_impl; [|eassumption]); cbn; intros; lia.
  - rewrite app_length. lia.
Qed.

Lemma int_text_states key k2 z : -2147483648 <= z <= 2147483647 -> chars k2 = text key ++ [32; 61; 32] ->
  number_line key z (int_text k2 z).
Proof.
  intros Hz Hk. unfold int_text. rewrite Hk. exists [32], [32], (print_d z), [].
  split; [rewrite <- !app_assoc; reflexivity|]. split; [cbn; lia|]. split; [repeat constructor; auto|].
  split; [apply print_d_ok; auto|]. split; [auto|]. discriminate.
Qed.

Lemma chars_ok s : forallb (fun c => (10 <? c) && (c <? 256)) (chars s) = true -> Forall (fun c => 10 < c < 256) (chars s).
Proof. intros H. apply Forall_forall. intros x Hx. rewrite forallb_forall in H. specialize (H x Hx). lia. Qed.

Definition envi_line : list Z := chars "ENVI" ++ [10].
Definition tag_line (tag : list Z) : list Z := chars "interleave = " ++ tag ++ [10].
Definition unknown_line : list Z := chars "wavelength = unknown " ++ [10].
Definition brace_line : list Z := chars "wavelength = { " ++ [10].
Definition lines1 (S L B ty : Z) : list (list Z) :=
  [envi_line; int_text "samples = " S; int_text "lines = " L; int_text "bands = " B; int_text "data type = " ty].
Definition fields1 (S L B ty : Z) : list hfield := [Unrelated; Samples S; Lines L; Bands B; DataType ty].

Lemma plain_dec s : forallb (fun c => (10 <? c) && (c <? 256)) (chars s) = true -> (List.length (chars s) <= 50)%nat ->
  header_line (chars s ++ [10]).
Proof.
  intros H Hl. apply chars_ok in H. apply plain_line; [|eapply Forall_impl; [|exact H]; cbn; intros; lia|lia].
  intros X. rewrite Forall_forall in H. specialize (H _ X). lia.
Qed.
Ltac len := vm_compute; lia.
Ltac dat n := exists n; do 2 eexists; split; [vm_compute; reflexivity|split; [vm_compute; reflexivity|lia]].

Lemma envi_states : states Unrelated envi_line.
Proof.
  exists (chars "ENVI"), []. split; [reflexivity|]. split; [cbn; intuition lia|]. split; [auto|].
  repeat split; dat 0%nat.
Qed.
Lemma unknown_states : states Unrelated unknown_line.
Proof.
  exists (chars "wavelength "), (61 :: chars " unknown "). split; [reflexivity|]. split; [cbn; intuition lia|]. split; [eauto|].
  repeat split; [dat 0%nat|dat 0%nat|dat 0%nat|dat 0%nat|dat 0%nat|dat 13%nat].
Qed.

Section Lines.
  Variables (S L B ty : Z).
  Hypothesis HS : 0 < S <= 2147483647. Hypothesis HL : 0 < L <= 2147483647. Hypothesis HB : 0 < B <= 2147483647.
  Hypothesis Hty : 0 <= ty <= 2147483647.

  Lemma lines1_states : Forall2 states (fields1 S L B ty) (lines1 S L B ty).
  Proof.
    unfold fields1, lines1. constructor; [apply envi_states|].
    constructor; [apply int_text_states; [lia|reflexivity]|]. constructor; [apply int_text_states; [lia|reflexivity]|].
    constructor; [apply int_text_states; [lia|reflexivity]|]. constructor; [apply int_text_states; [lia|reflexivity]|]. constructor.
  Qed.
  Lemma lines1_ok : Forall header_line (lines1 S L B ty).
  Proof.
    unfold lines1. constructor; [apply plain_dec; [reflexivity|len]|].
    repeat (constructor; [apply int_text_line; [lia|apply chars_ok; reflexivity|len]|]). constructor.
  Qed.
End Lines.
Lemma tag_line_ok l : header_line (tag_line (tag_of l)).
Proof.
  unfold tag_line. rewrite app_assoc. apply plain_line.
  - destruct l; vm_compute; intuition lia.
  - destruct l; repeat (constructor; [vm_compute; split; reflexivity|]); constructor.
  - destruct l; vm_compute; reflexivity.
Qed.
Lemma tag_line_states l : exists a b c, tag_of l = [a; b; c] /\ 0 <= a < 256 /\ 0 <= b < 256 /\ 0 <= c < 256 /\ states (Interleave a b c) (tag_line (tag_of l)).
Proof.
  destruct l; (do 3 eexists; split; [reflexivity|]; do 3 (split; [lia|]); exists [32], []; split; [reflexivity|]; cbn; intuition lia).
Qed.

Definition ptok (x : sf) : tok := mkTok [] (print_f x) [].
Lemma ptok_text x : tok_text (ptok x) = print_f x.
Proof. unfold tok_text, ptok. cbn. apply app_nil_r. Qed.

Definition wave_at (dw : Z -> Z) (i : Z) : sf := fl_of_bits (word dw (4 * i) 4).
Definition wave_text (dw : Z -> Z) (B : Z) : list Z :=
  comma_list (map (fun i => ptok (wave_at dw i)) (iota (B - 1))) ++ tok_text (ptok (wave_at dw (B - 1))) ++ [125].

Definition header_text (S L B ty : Z) (tag : list Z) : list Z := List.concat (lines1 S L B ty ++ [tag_line tag]).

Lemma iota_succ n : 0 <= n -> iota (n + 1) = iota n ++ [n].
Proof.
  intros H. unfold iota. replace (Z.to_nat (n + 1)) with (Z.to_nat n + 1)%nat by lia. rewrite seq_app, map_app. cbn. repeat f_equal. lia.
Qed.
Lemma comma_snoc l t : comma_list (l ++ [t]) = comma_list l ++ tok_text t ++ [44].
Proof. unfold comma_list. rewrite map_app, concat_app. cbn. now rewrite app_nil_r. Qed.

Lemma path_ne (p : path) x r : p ++ x :: r <> p.
Proof. intros H. apply (f_equal (@List.length Z)) in H. rewrite app_length in H. cbn in H. lia. Qed.

(** ** writehdr *)

Lemma writehdr_run can e s p S L B ty l wave : can (p ++ chars ".hdr") = true -> 0 < B <= 2147483647 ->
  wave = None \/ readable s wave (B * 4) ->
  exists s', writehdr can p S L B ty (tag_of l) wave e s = Ret tt s' /\ objs s' = objs s
    /\ other_files [p ++ chars ".hdr"] s s'
    /\ match wave with
       | None => file_of s' (p ++ chars ".hdr") = Some (header_text S L B ty (tag_of l) ++ unknown_line)
       | Some q => exists sz dw, isb s q sz dw
           /\ file_of s' (p ++ chars ".hdr") = Some (header_text S L B ty (tag_of l) ++ brace_line ++ wave_text dw B)
       end.
Proof.
  intros Hc HB Hw. set (h := p ++ chars ".hdr") in *. unfold writehdr. fold h.
  runs (fopen_w_ok can e s h Hc). rewrite (bind_ret _ _ e (with_file s h []) tt (with_file s h []) eq_refl).
  assert (ST : forall x b old (K : M unit), objs x = objs s -> other_files [h] s x -> file_of x h = Some old ->
     exists x', objs x' = objs s /\ other_files [h] s x' /\ file_of x' h = Some (old ++ b) /\ (fput h b ;;; K) e x = K e x'
       /\ fput h b e x = Ret tt x').
  { intros x b old K Ho Hf Hfo. exists (with_file x h (old ++ b)). split; [exact Ho|]. split; [|split; [apply file_with|split]].
    - intros z Hz. rewrite file_with_other by (intros ->; apply Hz; now left). apply Hf, Hz.
    - now rewrite (bind_ret _ _ _ _ _ _ (fput_ok e x h old b Hfo)).
    - apply fput_ok; auto. }
  assert (O0 : objs (with_file s h []) = objs s) by reflexivity.
  assert (F0 : other_files [h] s (with_file s h [])) by (intros z Hz; apply file_with_other; intros ->; apply Hz; now left).
  pose proof (file_with s h []) as C0. remember (with_file s h []) as s0 eqn:E0. clear E0.
  destruct (ST s0 (chars "ENVI" ++ [10]) _ (ret tt) O0 F0 C0) as (s1 & O1 & F1 & C1 & _ & E1). runs E1.
  destruct (ST s1 (chars "samples = " ++ print_d S ++ [10]) _ (ret tt) O1 F1 C1) as (s2 & O2 & F2 & C2 & _ & E2). runs E2.
  destruct (ST s2 (chars "lines = " ++ print_d L ++ [10]) _ (ret tt) O2 F2 C2) as (s3 & O3 & F3 & C3 & _ & E3). runs E3.
  destruct (ST s3 (chars "bands = " ++ print_d B ++ [10]) _ (ret tt) O3 F3 C3) as (s4 & O4 & F4 & C4 & _ & E4). runs E4.
  destruct (ST s4 (chars "data type = " ++ print_d ty ++ [10]) _ (ret tt) O4 F4 C4) as (s5 & O5 & F5 & C5 & _ & E5). runs E5.
  assert (T3 : tag3 (tag_of l) e s5 = Ret (tag_of l) s5) by (destruct l; reflexivity). runs T3.
  replace (cstr (tag_of l)) with (tag_of l) by (destruct l; reflexivity).
  destruct (ST s5 (chars "interleave = " ++ tag_of l ++ [10]) _ (ret tt) O5 F5 C5) as (s6 & O6 & F6 & C6 & _ & E6). runs E6.
  assert (C6' : file_of s6 h = Some (header_text S L B ty (tag_of l))).
  { rewrite C6. unfold header_text, lines1, envi_line, int_text, tag_line. cbn [app List.concat].
    rewrite <- !app_assoc. cbn [app]. rewrite ?app_nil_r. reflexivity. }
  clear C6 C1 C2 C3 C4 C5.
  destruct Hw as [-> | Hr].
  - cbn [nonnull]. destruct (ST s6 unknown_line _ (ret tt) O6 F6 C6') as (s7 & O7 & F7 & C7 & _ & E7).
    exists s7. split; [exact E7|]. split; [exact O7|]. split; [exact F7|exact C7].
  - apply readable_isb in Hr as (q & sz & dw & -> & Hq & Hsz). cbn [nonnull].
    destruct (ST s6 brace_line _ (ret tt) O6 F6 C6') as (s7 & O7 & F7 & C7 & _ & E7).
    fold brace_line. runs E7. cev. 
    assert (LF : forall x i, objs x = objs s -> 0 <= i < B -> loadf (Some q) i e x = Ret (wave_at dw i) x).
    { intros x i Hx Hi. unfold loadf. assert (Iq : isb x q sz dw) by (unfold isb, bytes_at in *; rewrite Hx; exact Hq).
      now rewrite (bind_ret _ _ _ _ _ _ (loadle_ok e x q sz dw 4 Iq (4 * i) ltac:(lia) ltac:(lia))). }
    set (pre := header_text S L B ty (tag_of l) ++ brace_line) in *.
    destruct (for_inv e 0 (B - 1) (fun i => x <- loadf (Some q) i ;; fput h (print_f x ++ chars ","))
      (fun i x => objs x = objs s /\ other_files [h] s x
         /\ file_of x h = Some (pre ++ comma_list (map (fun i => ptok (wave_at dw i)) (iota i)))) s7) as (s8 & E8 & O8 & F8 & C8).
    + lia.
    + split; [auto|]. split; [auto|]. rewrite C7. change (iota 0) with (@nil Z). cbn [map]. change (comma_list []) with (@nil Z). now rewrite app_nil_r.
    + intros i x Hi (Ox & Fx & Cx). runs (LF x i Ox ltac:(lia)).
      destruct (ST x (print_f (wave_at dw i) ++ chars ",") _ (ret tt) Ox Fx Cx) as (x' & O' & F' & C' & _ & E').
      exists x'. split; [exact E'|]. split; [auto|]. split; [auto|]. rewrite C'. rewrite iota_succ by lia.
      rewrite map_app. cbn [map]. rewrite comma_snoc, ptok_text. change (chars ",") with [44]. now rewrite <- !app_assoc.
    + rewrite (bind_ret _ _ e s7 (B - 1) s7 eq_refl). runs E8. runs (LF s8 (B - 1) O8 ltac:(lia)).
      destruct (ST s8 (print_f (wave_at dw (B - 1)) ++ chars "}") _ (ret tt) O8 F8 C8) as (s9 & O9 & F9 & C9 & _ & E9).
      exists s9. split; [exact E9|]. split; [auto|]. split; [auto|]. exists sz, dw. split; [exact Hq|]. rewrite C9. unfold wave_text, pre.
      rewrite ptok_text. change (chars "}") with [125]. now rewrite <- !app_assoc.
Qed.

(** ** hmsave *)

Lemma hmsave_run can e s p m l es path : cube s p m l es -> can path = true -> can (path ++ chars ".hdr") = true ->
  exists s' q sz d, hmsave can (Some path) p e s = Ret tt s' /\ objs s' = objs s
    /\ hm_data m = Some q /\ isb s q sz d /\ hm_samples m * hm_lines m * hm_bands m * es <= sz
    /\ file_of s' path = Some (bytes_of d (hm_samples m * hm_lines m * hm_bands m * es))
    /\ other_files [path; path ++ chars ".hdr"] s s'
    /\ match hm_wave m with
       | None => file_of s' (path ++ chars ".hdr") = Some (header_text (hm_samples m) (hm_lines m) (hm_bands m) (hm_type m) (tag_of l) ++ unknown_line)
       | Some q => exists sz dw, isb s q sz dw
           /\ file_of s' (path ++ chars ".hdr") = Some (header_text (hm_samples m) (hm_lines m) (hm_bands m) (hm_type m) (tag_of l) ++ brace_line ++ wave_text dw (hm_bands m))
       end.
Proof.
  intros [Hh Htag Hpad Hty HS HL HB Hsz Hws Hd Hw] Hc1 Hc2.
  apply readable_isb in Hd as (q & sz & d & Eq & Hq & Hn).
  pose proof (type_size_range _ _ Hty) as Hes. pose proof (type_size_elemsize _ _ Hty) as Hee.
  set (S := hm_samples m) in *. set (L := hm_lines m) in *. set (B := hm_bands m) in *.
  assert (HSL : 0 < S * L) by nia. assert (HSLB : 0 < S * L * B) by nia.
  assert (HD : S * L * B <= S * L * B * es) by nia.
  assert (HSL' : S * L <= S * L * B) by nia.
  set (s1 := with_file s path (bytes_of d (S * L * B * es))).
  assert (Hw1 : hm_wave m = None \/ readable s1 (hm_wave m) (B * 4)) by exact Hw.
  assert (HB' : 0 < B <= 2147483647) by lia.
  destruct (writehdr_run can e (with_file (with_file s path []) path ([] ++ bytes_of d (S * L * B * es))) path S L B (hm_type m) l (hm_wave m) Hc2 HB' Hw1) as (s' & E & O & F & X).
  exists s', q, sz, d. split.
  { unfold hmsave. rewrite bind_assert by (destruct p; [reflexivity|discriminate Hh]).
    runs (hget_ok _ _ e _ Hh). runs (fopen_w_ok can e s path Hc1). rewrite bind_assert by reflexivity.
    fold S L B. rewrite Hee.
    rewrite (bind_ret _ _ e (with_file s path []) (S * L * B) (with_file s path [])) by (cev; reflexivity).
    rewrite Eq. rewrite (bind_ret _ _ _ _ _ _ (fwrite_ok e (with_file s path []) q sz d (S * L * B * es) path [] Hq ltac:(lia) (file_with s path []))).
    rewrite Htag. exact E. }
  split; [exact O|]. split; [exact Eq|]. split; [exact Hq|]. split; [exact Hn|].
  assert (Hne : path <> path ++ chars ".hdr") by (intros Hx; symmetry in Hx; revert Hx; apply path_ne).
  split. { rewrite F by (intros [Hx|[]]; congruence). apply file_with. }
  split. { intros z Hz. rewrite F by (intros [Hx|[]]; apply Hz; right; left; auto).
    rewrite !file_with_other; auto; intros ->; apply Hz; now left. }
  exact X.
Qed.

(** ** hmread_with_size *)

Lemma fread_ok e s q sz d n b : isb s q sz d -> 0 <= n <= sz -> n = Z.of_nat (List.length b) ->
  exists d', fread (Some q) n b e s = Ret [] (putd s q d') /\ forall i, 0 <= i < n -> d' i = nth (Z.to_nat i) b 0.
Proof.
  intros H Hn Hb. unfold fread. rewrite H. replace ((0 <=? n) && (n <=? sz)) with true by lia.
  eexists. split; [f_equal; apply skipn_all2; lia|]. intros i Hi. cbv beta.
  now replace ((0 <=? i) && (i <? Z.min n (Z.of_nat (List.length b)))) with true by lia.
Qed.

