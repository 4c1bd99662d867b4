(** * Proofs: raw pictures, wavelength lists. *)
From Verif Require Import Base Logic ModelFloat ModelDouble ModelCore ModelPixel ModelFile SpecBase SpecCore SpecNum SpecPixel SpecFile SpecHdr ProofCore ProofLayout ProofHM ProofCopy ProofCore2 ProofImage2 ProofImage3 ProofImage4 ProofPixel ProofColor ProofWord ProofArr ProofFlip ProofBmp ProofHdr ProofHdr2 ProofWave ProofSave ProofSave2.
From Coq Require Import Floats.SpecFloat String Ascii ZifyBool ZifyNat.
Ltac Zify.zify_post_hook ::= Z.div_mod_to_equations.
Open Scope Z_scope.

(** ** smread *)

(** What comes back, whatever the channel count: the header says ch channels, the
    data are the first R*C*es bytes of the file and nothing else. *)
Lemma smread_run e s path f R C ty ch es : env_ok e -> heap_ok s -> file_of s path = Some f -> type_size ty = Some es ->
  0 < R -> 0 < C -> R * C * es <= 2147483647 -> R * C * es <= Z.of_nat (List.length f) -> (forall x, In x f -> 0 <= x < 256) ->
  exists p' s' m', smread (Some path) R C ty ch e s = Ret p' s' /\ sm_at s' p' = Some m'
    /\ sm_rows m' = R /\ sm_cols m' = C /\ sm_type m' = ty /\ sm_chan m' = ch /\ readable s' (sm_data m') (R * C * es)
    /\ (forall i, 0 <= i < R * C * es -> byte_at s' (sm_data m') i = nth_error f (Z.to_nat i))
    /\ (forall i, R * C * es <= i -> byte_at s' (sm_data m') i = None)
    /\ fresh_in s p' /\ fresh_in s (sm_data m') /\ old_unchanged s s' /\ files s' = files s /\ heap_ok s'.
Proof.
  intros He Hs Hf Hty HR HC Hsz Hlen Hby. pose proof (type_size_range _ _ Hty) as Hes. pose proof (type_size_elemsize _ _ Hty) as Hee.
  assert (HRC : 0 < R * C) by nia. assert (HD : R * C <= R * C * es) by nia. set (D := R * C * es) in *.
  set (k := List.length (objs s)). set (d0 := e_junk e k).
  set (d1 := fun i => if (0 <=? i) && (i <? Z.min D (Z.of_nat (List.length f))) then nth (Z.to_nat i) f 0 else d0 i).
  set (x1 := with_block e s D d1).
  assert (H1 : heap_ok x1) by (apply wb_heap; auto; lia).
  assert (L1 : List.length (objs x1) = Datatypes.S k) by apply wb_len.
  set (m' := mkSM R C ty ch es (Some k)).
  set (y := mkSt (objs x1 ++ [mkObj (e_addr e (Datatypes.S k)) SIZEOF_SM (Datatypes.S k) true (CSM m')]) (files s)).
  exists (Some (Datatypes.S k)), y, m'.
  assert (Ik : isb y k D d1) by (apply (isb_app_old x1), wb_isb).
  split; [|split; [|split; [|split; [|split; [|split; [|split; [|split; [|split; [|split; [|split; [|split; [|split]]]]]]]]]]]]; try reflexivity.
  - unfold smread, fopen_r. rewrite (bind_ret _ _ e s (Some f) s) by now rewrite Hf. rewrite Hee.
    rewrite (bind_ret _ _ e s (R * C) s) by (cev_with ltac:(lia); reflexivity).
    rewrite (bind_ret _ _ e s D s) by (cev_with ltac:(lia); reflexivity).
    runs (wb_malloc e s D ltac:(lia)). fold k. fold d0.
    rewrite (bind_ret _ _ e (with_block e s D d0) (skipn (Z.to_nat D) f) x1).
    2:{ unfold fread. pose proof (wb_isb e s D d0) as I0. unfold isb in I0. fold k in I0. rewrite I0. replace ((0 <=? D) && (D <=? D)) with true by lia.
        f_equal. unfold k. rewrite wb_put. reflexivity. }
    unfold create_simple_mat_with_data. rewrite bind_assert by lia. rewrite Hee. cbn [nonnull].
    rewrite (bind_ret _ _ e x1 SIZEOF_SM x1 eq_refl). rewrite (bind_ret _ _ _ _ _ _ (malloc_new e x1 SIZEOF_SM ltac:(unfold SIZEOF_SM; lia))). rewrite L1.
    rewrite bind_assert by reflexivity.
    set (z := mkSt _ _). rewrite (bind_ret _ _ e z (Some k) z eq_refl).
    rewrite (bind_ret _ _ e z tt y); [reflexivity|]. unfold set_header, z. cbn [objs]. rewrite <- L1. rewrite nth_error_app_new0. cbn [o_live].
    unfold putc, y; cbn [objs files]. rewrite lupd_app_new0, <- L1. reflexivity.
  - unfold sm_at, y; cbn [objs]. rewrite <- L1, nth_error_app_new0. reflexivity.
  - exists k, D, d1. split; [reflexivity|]. split; [exact Ik|lia].
  - intros i Hi. cbn [sm_data m']. rewrite (byte_at_isb y _ _ _ _ Ik) by auto. unfold d1. replace ((0 <=? i) && (i <? Z.min D (Z.of_nat (List.length f)))) with true by lia.
    rewrite (nth_error_nth' f 0) by lia. f_equal. apply Z.mod_small. apply Hby, nth_In. lia.
  - intros i Hi. cbn [sm_data m']. unfold byte_at. unfold isb in Ik. rewrite Ik. unfold inb. replace ((0 <=? i) && (i <? D)) with false by lia. reflexivity.
  - exists (Datatypes.S k). split; [reflexivity|]. fold k. lia.
  - exists k. split; [reflexivity|]. fold k. lia.
  - apply (old_unchanged_trans s x1); [apply wb_old|]. intros i Hi. unfold y; cbn [objs]. now rewrite nth_error_app1.
  - unfold y. apply (heap_ok_app x1 (Datatypes.S k)); auto. constructor; [cbn [o_root List.length]; lia|constructor].
Qed.

Lemma smread_single e s path f R C ty es : env_ok e -> heap_ok s -> file_of s path = Some f -> type_size ty = Some es ->
  0 < R -> 0 < C -> R * C * es + 96 <= 2147483647 -> R * C * es <= Z.of_nat (List.length f) -> (forall x, In x f -> 0 <= x < 256) ->
  exists p' s' m', smread (Some path) R C ty 1 e s = Ret p' s' /\ image s' p' m' es
    /\ sm_rows m' = R /\ sm_cols m' = C /\ sm_type m' = ty /\ sm_chan m' = 1
    /\ (forall i j t, 0 <= i < R -> 0 <= j < C -> 0 <= t < es -> pixel_byte s' m' es i j 0 t = nth_error f (Z.to_nat ((i * C + j) * es + t)))
    /\ fresh_in s p' /\ fresh_in s (sm_data m') /\ old_unchanged s s' /\ files s' = files s /\ heap_ok s'.
Proof.
  intros He Hs Hf Hty HR HC Hsz Hlen Hby.
  destruct (smread_run e s path f R C ty 1 es He Hs Hf Hty HR HC ltac:(lia) Hlen Hby) as (p' & s' & m' & E & Hm & E1 & E2 & E3 & E4 & Rd & V & _ & REST).
  exists p', s', m'. split; [exact E|]. split.
  { constructor; rewrite ?E1, ?E2, ?E3, ?E4, ?Z.mul_1_r; auto; lia. }
  do 4 (split; [assumption|]). split; [|exact REST]. intros i j t Hi Hj Ht. unfold pixel_byte. rewrite E2, E4.
  pose proof (type_size_range _ _ Hty) as Hes.
  assert (0 <= i * C + j < R * C) by nia. assert (0 <= (i * C + j) * es + t < R * C * es) by nia.
  rewrite <- V by auto. f_equal. lia.
Qed.

(** With more channels the pixels from the second part on are not there. *)
Lemma smread_channels e s path f R C ty ch es : env_ok e -> heap_ok s -> file_of s path = Some f -> type_size ty = Some es ->
  0 < R -> 0 < C -> 1 < ch -> R * C * es <= 2147483647 -> R * C * es * ch <= Z.of_nat (List.length f) -> (forall x, In x f -> 0 <= x < 256) ->
  exists p' s' m', smread (Some path) R C ty ch e s = Ret p' s' /\ sm_at s' p' = Some m'
    /\ sm_rows m' = R /\ sm_cols m' = C /\ sm_chan m' = ch
    /\ ~ readable s' (sm_data m') (R * C * es * ch)
    /\ (forall t, 0 <= t < es -> pixel_byte s' m' es (R - 1) (C - 1) (ch - 1) t = None).
Proof.
  intros He Hs Hf Hty HR HC Hch Hsz Hlen Hby. pose proof (type_size_range _ _ Hty) as Hes.
  assert (HRC : 0 < R * C) by nia. assert (HD : 0 < R * C * es) by nia.
  destruct (smread_run e s path f R C ty ch es He Hs Hf Hty HR HC Hsz ltac:(nia) Hby) as (p' & s' & m' & E & Hm & E1 & E2 & E3 & E4 & Rd & V & N & REST).
  exists p', s', m'. do 5 (split; [assumption|]). split.
  - intros Hr. apply readable_isb in Hr as (q & sz & d & Eq & Iq & Hn). specialize (N (R * C * es) ltac:(lia)). rewrite Eq in N.
    rewrite (byte_at_isb s' _ _ _ _ Iq) in N by nia. discriminate.
  - intros t Ht. unfold pixel_byte. apply N. rewrite E2, E4.
    assert (R * C * es * 2 <= R * C * es * ch) by nia.
    replace ((((R - 1) * C + (C - 1)) * ch + (ch - 1)) * es + t) with (R * C * es * ch - es + t) by ring.
    assert (es <= R * C * es) by nia. lia.
Qed.

(** ** The wavelength reader *)

Lemma starts_holds s q n d l : isb s q n d -> l <> [] -> starts_with s (Some q) l -> holds d 0 l /\ Z.of_nat (List.length l) <= n.
Proof.
  intros H Hne S. assert (A : forall i, (i < List.length l)%nat -> d (Z.of_nat i) mod 256 = nth i l 0 /\ Z.of_nat i < n).
  { intros i Hi. specialize (S i Hi). unfold byte_at in S. unfold isb in H. rewrite H in S. destruct (inb (Z.of_nat i) n) eqn:Ei; [|discriminate].
    injection S as S. split; [exact S|]. unfold inb in Ei. lia. }
  split; [intros i Hi; cbn [Z.add]; apply A, Hi|]. destruct l as [|c l]; [congruence|]. specialize (A (List.length l)). cbn [List.length] in *. lia.
Qed.

Section List.
  Variables (strtod : list Z -> sf) (e : env) (s : st) (qw qv : nat) (bands : Z) (l : list tok) (tk : tok).
  Hypothesis Hs : heap_ok s.
  Hypothesis Fl : Forall token l. Hypothesis Ft : token tk.
  Hypothesis Hne : qw <> qv.
  Let N := Z.of_nat (List.length l) + 1.
  Hypothesis Hb : N <= bands.
  Hypothesis Hv : readable s (Some qv) (4 * N).
  Let T := comma_list l ++ tok_text tk.

  Lemma dead_old e0 dv dt : unchanged_except [Some qv] s (Wdead e0 s qv dv dt).
  Proof.
    intros i Hi Hn. unfold Wdead; cbn [objs]. rewrite nth_error_app1 by (rewrite putd_length; auto).
    unfold putd; cbn [objs]. apply lupd_nth_ne. intros ->. apply Hn. now left.
  Qed.
  Lemma stored_is x sz dv i t : isb x qv sz dv -> 0 <= i -> 4 * i + 4 <= sz -> stored strtod dv i t -> wave_is strtod x (Some qv) i t.
  Proof.
    intros I Hi Hz St. unfold wave_is. rewrite (word_at_isb x qv sz dv 4 I) by lia. unfold stored in St. now rewrite St.
  Qed.

  Lemma list_closed c : (c = 125 \/ (c = 44 /\ N = bands)) -> starts_with s (Some qw) (T ++ [c]) ->
    (exists z, Z.of_nat (List.length (T ++ [c])) <= z /\ byte_at s (Some qw) z = Some 0) ->
    exists s', read_wavelength strtod (Some qw) (Some qv) bands e s = Ret tt s'
      /\ (forall i t, nth_error (l ++ [tk]) i = Some t -> wave_is strtod s' (Some qv) (Z.of_nat i) t)
      /\ (forall j, 4 * N <= j -> byte_at s' (Some qv) j = byte_at s (Some qv) j)
      /\ unchanged_except [Some qv] s s' /\ files s' = files s.
  Proof.
    intros Hc Hst (z & Hz & H0). pose proof Hv as Hv2. apply readable_isb in Hv2 as (q' & nv & dv0 & [= <-] & Iv & Hn).
    assert (exists nw dw, isb s qw nw dw) as (nw & dw & Iw).
    { unfold byte_at in H0. destruct (bytes_at s (Some qw)) as [[[q n] d]|] eqn:Eb; [|discriminate]. exists n, d. unfold isb. rewrite Eb.
      f_equal. f_equal. f_equal. unfold bytes_at in Eb. destruct (nth_error (objs s) qw) as [o|]; [|discriminate]. destruct (o_live o); [|discriminate].
      destruct (o_cont o); try discriminate. congruence. }
    destruct (starts_holds s qw nw dw (T ++ [c]) Iw ltac:(intros XX; apply app_eq_nil in XX as [_ XX]; discriminate XX) Hst) as [Hh Hl].
    unfold byte_at in H0. pose proof Iw as Iw'. unfold isb in Iw'. rewrite Iw' in H0. destruct (inb z nw) eqn:Ez; [|discriminate]. injection H0 as H0. unfold inb in Ez.
    destruct (closed_run strtod e s qw qv nw nv dw dv0 bands Hs Iw Iv Hne l tk c Fl Ft) as (dv & dt & E & St & Sl & R).
    { tauto. } { rewrite app_assoc. exact Hh. } { exists z. rewrite app_assoc. split; [fold T; lia|exact H0]. } { exact Hb. } { exact Hn. } { fold N. intuition. }
    exists (Wdead e s qv dv dt). split; [exact E|].
    assert (I : isb (Wdead e s qv dv dt) qv nv dv) by (apply (isb_app_old (putd s qv dv)); eapply isb_putd_eq; eauto).
    split; [|split; [|split; [apply dead_old|reflexivity]]].
    - intros i t Hi. assert (Hil : (i < List.length (l ++ [tk]))%nat) by (apply nth_error_Some; congruence). rewrite app_length in Hil. cbn [List.length] in Hil.
      eapply stored_is; [exact I|lia|fold N in Hn; lia|]. destruct (Nat.eq_dec i (List.length l)) as [->|Hni].
      + rewrite nth_error_app2, Nat.sub_diag in Hi by lia. cbn in Hi. injection Hi as <-. exact Sl.
      + rewrite nth_error_app1 in Hi by lia. apply (nth_error_nth _ _ (mkTok [] [] [])) in Hi. rewrite <- Hi. apply St. lia.
    - intros j Hj. unfold byte_at. unfold isb in I, Iv. rewrite I, Iv. destruct (inb j nv); [|reflexivity]. rewrite R by (fold N; lia). reflexivity.
  Qed.

  (** A list without a brace: the last value is not stored. *)
  Lemma list_open : starts_with s (Some qw) (T ++ [0]) ->
    exists s', read_wavelength strtod (Some qw) (Some qv) bands e s = Ret tt s'
      /\ (forall i t, nth_error l i = Some t -> wave_is strtod s' (Some qv) (Z.of_nat i) t)
      /\ word_at s' (Some qv) (4 * Z.of_nat (List.length l)) 4 = word_at s (Some qv) (4 * Z.of_nat (List.length l)) 4
      /\ unchanged_except [Some qv] s s' /\ files s' = files s.
  Proof.
    intros Hst. pose proof Hv as Hv2. apply readable_isb in Hv2 as (q' & nv & dv0 & [= <-] & Iv & Hn).
    assert (exists nw dw, isb s qw nw dw) as (nw & dw & Iw).
    { specialize (Hst 0%nat). assert (0 < List.length (T ++ [0%Z]))%nat by (rewrite app_length; cbn; lia). specialize (Hst H). unfold byte_at in Hst.
      destruct (bytes_at s (Some qw)) as [[[q n] d]|] eqn:Eb; [|discriminate]. exists n, d. unfold isb. rewrite Eb.
      f_equal. f_equal. f_equal. unfold bytes_at in Eb. destruct (nth_error (objs s) qw) as [o|]; [|discriminate]. destruct (o_live o); [|discriminate].
      destruct (o_cont o); try discriminate. congruence. }
    destruct (starts_holds s qw nw dw (T ++ [0]) Iw ltac:(intros XX; apply app_eq_nil in XX as [_ XX]; discriminate XX) Hst) as [Hh Hl].
    destruct (open_run strtod e s qw qv nw nv dw dv0 bands Hs Iw Iv Hne l tk Fl Ft) as (dv & dt & E & St & R).
    { rewrite app_assoc. exact Hh. } { rewrite app_assoc. exact Hl. } { exact Hb. } { exact Hn. }
    exists (Wdead e s qv dv dt). split; [exact E|].
    assert (I : isb (Wdead e s qv dv dt) qv nv dv) by (apply (isb_app_old (putd s qv dv)); eapply isb_putd_eq; eauto).
    split; [|split; [|split; [apply dead_old|reflexivity]]].
    - intros i t Hi. assert (Hil : (i < List.length l)%nat) by (apply nth_error_Some; congruence).
      eapply stored_is; [exact I|lia|fold N in Hn; lia|]. apply (nth_error_nth _ _ (mkTok [] [] [])) in Hi. rewrite <- Hi. apply St. lia.
    - rewrite (word_at_isb _ qv nv dv 4 I), (word_at_isb _ qv nv dv0 4 Iv) by (fold N in Hn; lia). f_equal.
      cbn [word]. rewrite !R by lia. reflexivity.
  Qed.
End List.

Lemma wave_list_closed strtod e s qw qv bands l tk c : heap_ok s -> Forall token (l ++ [tk]) -> qw <> qv ->
  Z.of_nat (List.length (l ++ [tk])) <= bands -> readable s (Some qv) (4 * Z.of_nat (List.length (l ++ [tk]))) ->
  c = 125 \/ (c = 44 /\ Z.of_nat (List.length (l ++ [tk])) = bands) ->
  starts_with s (Some qw) (comma_list l ++ tok_text tk ++ [c]) ->
  (exists z, Z.of_nat (List.length (comma_list l ++ tok_text tk ++ [c])) <= z /\ byte_at s (Some qw) z = Some 0) ->
  exists s', read_wavelength strtod (Some qw) (Some qv) bands e s = Ret tt s'
    /\ (forall i t, nth_error (l ++ [tk]) i = Some t -> wave_is strtod s' (Some qv) (Z.of_nat i) t)
    /\ (forall j, 4 * Z.of_nat (List.length (l ++ [tk])) <= j -> byte_at s' (Some qv) j = byte_at s (Some qv) j)
    /\ unchanged_except [Some qv] s s' /\ files s' = files s.
Proof.
  intros Hs F Hne. apply Forall_app in F as [Fl Ft]. inversion Ft as [|? ? Ft' _]; subst. rewrite app_length. cbn [List.length]. rewrite Nat2Z.inj_add. change (Z.of_nat 1) with 1.
  intros Hb Hv Hc. rewrite app_assoc. intros Hst Hz. apply list_closed with (c := c); auto.
Qed.

Lemma wave_list_open strtod e s qw qv bands l tk : heap_ok s -> Forall token (l ++ [tk]) -> qw <> qv ->
  Z.of_nat (List.length (l ++ [tk])) <= bands -> readable s (Some qv) (4 * Z.of_nat (List.length (l ++ [tk]))) ->
  starts_with s (Some qw) (comma_list l ++ tok_text tk ++ [0]) ->
  exists s', read_wavelength strtod (Some qw) (Some qv) bands e s = Ret tt s'
    /\ (forall i t, nth_error l i = Some t -> wave_is strtod s' (Some qv) (Z.of_nat i) t)
    /\ word_at s' (Some qv) (4 * Z.of_nat (List.length l)) 4 = word_at s (Some qv) (4 * Z.of_nat (List.length l)) 4
    /\ unchanged_except [Some qv] s s' /\ files s' = files s.
Proof.
  intros Hs F Hne. apply Forall_app in F as [Fl Ft]. inversion Ft as [|? ? Ft' _]; subst. rewrite app_length. cbn [List.length]. rewrite Nat2Z.inj_add. change (Z.of_nat 1) with 1.
  intros Hb Hv. rewrite app_assoc. intros Hst. apply list_open with (bands := bands) (tk := tk); auto.
Qed.
