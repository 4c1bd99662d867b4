(** * Proofs: reading a spectrum from a file. *)
From Verif Require Import Base ModelFloat ModelDouble ModelCore ModelImage ModelFile ModelFilter SpecBase SpecCore SpecImage SpecImage2 SpecPixel SpecNum
  SpecMatrix SpecFilter SpecStat SpecSpectral Logic ProofCore ProofLayout ProofCore2 ProofImage ProofImage2 ProofHM ProofCopy ProofImage3 ProofPixel ProofWord ProofArr
  ProofGrid ProofFold ProofMatrix ProofFloat ProofFloat2 ProofDiv ProofGrad ProofFilter ProofStat ProofSave2 ProofCluster3.
From Verif Require Import ModelSpectral SpecScan.
From Coq Require Import Floats.SpecFloat ZifyBool ZifyNat.
Ltac Zify.zify_post_hook ::= Z.div_mod_to_equations.
Open Scope Z_scope.

Section Read.
  Variables (scanf_ : list Z -> scan) (e : env) (s : st) (n : Z).
  Hypothesis Hn : 0 <= n * 4.
  Let k := List.length (objs s).
  Notation W d := (with_block e s (n * 4) d).

  Lemma put_one d i x : 0 <= i < n -> fl_ok x -> exists d', storef (Some k) i x e (W d) = Ret tt (W d')
    /\ word d' (4 * i) 4 = bits_of_fl x /\ forall p, ~ 4 * i <= p < 4 * i + 4 -> d' p = d p.
  Proof.
    intros Hi Hx. unfold storef. destruct (storele_ok e (W d) k (n * 4) d 4 (bits_of_fl x) (4 * i) (wb_isb e s (n * 4) d) ltac:(lia) ltac:(lia)) as (d' & E & A & B).
    unfold k in E. rewrite wb_put in E. fold k in E. exists d'. split; [exact E|]. split; [|exact B]. rewrite A. apply Z.mod_small.
    change (256 ^ Z.of_nat 4) with 4294967296. now apply bits_of_fl_range.
  Qed.
  Lemma put_out d i x : n <= i -> storef (Some k) i x e (W d) = UB.
  Proof.
    intros Hi. unfold storef. cbn [storele]. unfold bind. rewrite (store8_oob e (W d) k (n * 4) d _ _ (wb_isb e s (n * 4) d)) by lia. reflexivity.
  Qed.

  (** The values, as far as they fit. *)
  Lemma loop_values vs : forall fuel t t' temp i d, reads scanf_ t vs t' -> 0 <= i -> i + Z.of_nat (List.length vs) <= n -> (List.length vs <= fuel)%nat ->
    exists d' temp', spectrum_loop scanf_ fuel (Some k) i temp t e (W d)
        = spectrum_loop scanf_ (fuel - List.length vs) (Some k) (i + Z.of_nat (List.length vs)) temp' t' e (W d')
      /\ (forall j, (j < List.length vs)%nat -> word d' (4 * (i + Z.of_nat j)) 4 = bits_of_fl (nth j vs (fl_of_Z 0)))
      /\ (forall p, p < 4 * i -> d' p = d p) /\ (fl_ok temp -> fl_ok temp').
  Proof.
    induction vs as [|v vs IH]; intros fuel t t' temp i d HR Hi Hl Hf; cbn [List.length reads] in *.
    - subst t'. exists d, temp. rewrite Nat.sub_0_r, Z.add_0_r. split; [reflexivity|]. split; [intros; lia|]. split; auto.
    - destruct HR as (Hv & rest & ES & HR). destruct fuel as [|fuel]; [lia|]. cbn [spectrum_loop]. rewrite ES.
      destruct (put_one d i v ltac:(lia) Hv) as (d1 & E1 & A1 & B1). rewrite (bind_ret _ _ _ _ _ _ E1).
      destruct (IH fuel rest t' v (i + 1) d1 HR ltac:(lia) ltac:(lia) ltac:(lia)) as (d2 & temp2 & E2 & A2 & B2 & C2).
      exists d2, temp2. split; [|split; [|split]].
      + rewrite E2. replace (S fuel - S (List.length vs))%nat with (fuel - List.length vs)%nat by lia. f_equal. lia.
      + intros [|j] Hj; cbn [nth].
        * rewrite Z.add_0_r. rewrite <- A1. apply word_ext. intros u Hu. rewrite B2 by lia. reflexivity.
        * replace (i + Z.of_nat (S j)) with (i + 1 + Z.of_nat j) by lia. apply A2. lia.
      + intros p Hp. rewrite B2 by lia. apply B1. lia.
      + auto.
  Qed.

  (** One value too many. *)
  Lemma loop_overrun vs : forall fuel t t' temp i d, reads scanf_ t vs t' -> 0 <= i <= n -> n < i + Z.of_nat (List.length vs) -> (n - i < Z.of_nat fuel) ->
    spectrum_loop scanf_ fuel (Some k) i temp t e (W d) = UB.
  Proof.
    induction vs as [|v vs IH]; intros fuel t t' temp i d HR Hi Hl Hf; cbn [List.length reads] in *; [lia|].
    destruct HR as (Hv & rest & ES & HR). destruct fuel as [|fuel]; [lia|]. cbn [spectrum_loop]. rewrite ES.
    destruct (Z.eq_dec i n) as [->|Hne].
    - unfold bind. rewrite put_out by lia. reflexivity.
    - destruct (put_one d i v ltac:(lia) Hv) as (d1 & E1 & _ & _). rewrite (bind_ret _ _ _ _ _ _ E1). apply (IH fuel rest t'); auto; lia.
  Qed.

  (** Stuck: temp is stored again and again. *)
  Lemma loop_stuck : forall fuel t temp i d, stuck scanf_ t -> fl_ok temp -> 0 <= i <= n -> (n - i < Z.of_nat fuel) ->
    spectrum_loop scanf_ fuel (Some k) i temp t e (W d) = UB.
  Proof.
    induction fuel as [|fuel IH]; intros t temp i d HS Ht Hi Hf; [lia|]. cbn [spectrum_loop]. rewrite HS.
    destruct (Z.eq_dec i n) as [->|Hne].
    - unfold bind. rewrite put_out by lia. reflexivity.
    - destruct (put_one d i temp ltac:(lia) Ht) as (d1 & E1 & _ & _). rewrite (bind_ret _ _ _ _ _ _ E1). apply IH; auto; lia.
  Qed.
End Read.

Theorem read_spectrum_ok : forall scanf_ e s path t t' vs fuel n, file_of s path = Some t -> reads scanf_ t vs t' -> finished scanf_ t' ->
  0 <= n < 2 ^ 60 -> Z.of_nat (List.length vs) <= n -> (List.length vs < fuel)%nat ->
  exists p s', read_spectrum_file scanf_ fuel path n e s = Ret p s' /\ fresh_in s p /\ old_unchanged s s' /\ readable s' p (n * 4)
    /\ forall j, (j < List.length vs)%nat -> word_at s' p (4 * Z.of_nat j) 4 = Some (bits_of_fl (nth j vs (fl_of_Z 0))).
Proof.
  intros scanf_ e s path t t' vs fuel n HF HR HE Hn Hl Hf. unfold read_spectrum_file.
  assert (EF : fopen_r path e s = Ret (Some t) s) by (unfold fopen_r; now rewrite HF). runs EF.
  assert (Hb : 0 <= n * 4 < 2 ^ 62) by (clear - Hn; cbn in *; lia).
  runs (big_malloc e s (n * 4) Hb).
  destruct (loop_values scanf_ e s n vs fuel t t' (fl_of_Z 0) 0 (e_junk e (List.length (objs s))) HR ltac:(lia) ltac:(lia) ltac:(lia)) as (d' & temp' & E & A & _ & _).
  assert (E' : spectrum_loop scanf_ fuel (Some (List.length (objs s))) 0 (fl_of_Z 0) t e (with_block e s (n * 4) (e_junk e (List.length (objs s)))) = Ret tt (with_block e s (n * 4) d')).
  { rewrite E. destruct (fuel - List.length vs)%nat eqn:Q; [lia|]. cbn [spectrum_loop]. now rewrite HE. }
  runs E'. eexists _, _. split; [reflexivity|]. split; [eexists; split; [reflexivity|apply Nat.le_refl]|]. split; [apply wb_old|]. split.
  - eapply isb_readable; [apply wb_isb|lia].
  - intros j Hj. rewrite (word_at_isb _ _ _ _ 4 (wb_isb e s (n * 4) d')) by lia. specialize (A j Hj). rewrite Z.add_0_l in A. now rewrite A.
Qed.

Theorem read_spectrum_long : forall scanf_ e s path t t' vs fuel n, file_of s path = Some t -> reads scanf_ t vs t' ->
  0 <= n < 2 ^ 60 -> n < Z.of_nat (List.length vs) -> (Z.to_nat n < fuel)%nat -> read_spectrum_file scanf_ fuel path n e s = UB.
Proof.
  intros scanf_ e s path t t' vs fuel n HF HR Hn Hl Hf. unfold read_spectrum_file.
  assert (EF : fopen_r path e s = Ret (Some t) s) by (unfold fopen_r; now rewrite HF). runs EF.
  assert (Hb : 0 <= n * 4 < 2 ^ 62) by (clear - Hn; cbn in *; lia).
  runs (big_malloc e s (n * 4) Hb). unfold bind. rewrite (loop_overrun scanf_ e s n vs fuel t t'); auto; lia.
Qed.

Theorem read_spectrum_stuck : forall scanf_ e s path t t' vs fuel n, file_of s path = Some t -> reads scanf_ t vs t' -> stuck scanf_ t' ->
  0 <= n < 2 ^ 60 -> (Z.to_nat n + List.length vs < fuel)%nat -> read_spectrum_file scanf_ fuel path n e s = UB.
Proof.
  intros scanf_ e s path t t' vs fuel n HF HR HE Hn Hf. destruct (Z_lt_ge_dec n (Z.of_nat (List.length vs))) as [Hl|Hl].
  { apply (read_spectrum_long scanf_ e s path t t' vs); auto; lia. }
  unfold read_spectrum_file. assert (EF : fopen_r path e s = Ret (Some t) s) by (unfold fopen_r; now rewrite HF). runs EF.
  assert (Hb : 0 <= n * 4 < 2 ^ 62) by (clear - Hn; cbn in *; lia).
  runs (big_malloc e s (n * 4) Hb).
  destruct (loop_values scanf_ e s n vs fuel t t' (fl_of_Z 0) 0 (e_junk e (List.length (objs s))) HR ltac:(lia) ltac:(lia) ltac:(lia)) as (d' & temp' & E & _ & _ & T).
  unfold bind. rewrite E. rewrite loop_stuck; auto; try lia. apply T. reflexivity.
Qed.

Theorem read_spectrum_missing : forall scanf_ e s path fuel n, file_of s path = None -> read_spectrum_file scanf_ fuel path n e s = Exit.
Proof. intros scanf_ e s path fuel n HF. unfold read_spectrum_file, bind, fopen_r. now rewrite HF. Qed.
