(** * Proofs: the wavelength list reader. *)
From Verif Require Import Base Logic ModelFloat ModelCore ModelPixel ModelFile SpecBase SpecNum SpecFile SpecHdr ProofCore ProofHM ProofCopy ProofWord ProofArr ProofFlip ProofBmp.
From Coq Require Import Floats.SpecFloat String Ascii ZifyBool ZifyNat.
Ltac Zify.zify_post_hook ::= Z.div_mod_to_equations.
Open Scope Z_scope.

(** ** What atof looks at *)

Definition holds (d : Z -> Z) (i : Z) (l : list Z) : Prop :=
  forall j, (j < List.length l)%nat -> d (i + Z.of_nat j) mod 256 = nth j l 0.
Lemma holds_cons d i c l : holds d i (c :: l) <-> d i mod 256 = c /\ holds d (i + 1) l.
Proof.
  split.
  - intros H. split.
    + specialize (H 0%nat ltac:(cbn; lia)). now rewrite Z.add_0_r in H.
    + intros j Hj. specialize (H (S j) ltac:(cbn; lia)). cbn in H. rewrite <- H. f_equal. f_equal. lia.
  - intros [H0 H] j Hj. destruct j as [|j]; [now rewrite Z.add_0_r|]. cbn in Hj. cbn [nth].
    rewrite <- (H j) by lia. f_equal. f_equal. lia.
Qed.
Lemma holds_nil d i : holds d i [].
Proof. intros j Hj. cbn in Hj. lia. Qed.
Lemma holds_app d l : forall i r, holds d i (l ++ r) <-> holds d i l /\ holds d (i + Z.of_nat (List.length l)) r.
Proof.
  induction l as [|c l IH]; intros i r.
  - cbn. rewrite Z.add_0_r. split; [intros H; split; [apply holds_nil|auto]|tauto].
  - cbn [app List.length]. rewrite !holds_cons, IH. replace (i + 1 + Z.of_nat (List.length l)) with (i + Z.of_nat (S (List.length l))) by lia. tauto.
Qed.

Lemma token_chars_word d w : Forall word_char w -> forall n i, holds d i w ->
  isspace (d (i + Z.of_nat (List.length w)) mod 256) = true -> (List.length w < n)%nat ->
  token_chars n i d = Some w.
Proof.
  induction 1 as [|c w Hc _ IH]; intros n i Hh Hs Hn; (destruct n as [|n]; [cbn in Hn; lia|]); cbn [token_chars].
  - cbn in Hs. rewrite Z.add_0_r in Hs. rewrite Hs. reflexivity.
  - apply holds_cons in Hh as [H0 Hh]. rewrite H0. unfold word_char in Hc. unfold isspace.
    replace (((c =? 32) || (9 <=? c) && (c <=? 13)) || (c =? 0)) with false by lia.
    rewrite IH; auto; [|cbn in Hn; lia]. replace (i + 1 + Z.of_nat (List.length w)) with (i + Z.of_nat (List.length (c :: w))) by (cbn; lia). exact Hs.
Qed.
Lemma token_at_word d b w : Forall blank b -> Forall word_char w -> w <> [] -> forall n i, holds d i (b ++ w) ->
  isspace (d (i + Z.of_nat (List.length b + List.length w)) mod 256) = true -> (List.length b + List.length w < n)%nat ->
  token_at n i d = Some w.
Proof.
  intros Hb Hw Hne. induction Hb as [|c b Hc _ IH]; intros n i Hh Hs Hn; (destruct n as [|n]; [cbn in Hn; lia|]); cbn [token_at].
  - cbn [app List.length Nat.add] in *. destruct w as [|c w]; [congruence|].
    pose proof Hh as H'. apply holds_cons in H' as [H0 _]. rewrite H0. inversion Hw as [|? ? Hc _]; subst. unfold word_char in Hc.
    unfold isspace at 1. replace ((d i mod 256 =? 32) || (9 <=? d i mod 256) && (d i mod 256 <=? 13)) with false by lia.
    apply token_chars_word; auto.
  - cbn [app] in Hh. apply holds_cons in Hh as [H0 Hh]. rewrite H0. unfold blank in Hc. unfold isspace at 1.
    replace ((c =? 32) || (9 <=? c) && (c <=? 13)) with true by lia. apply IH; auto; [|cbn in Hn; lia].
    cbn [List.length] in Hs. replace (i + 1 + Z.of_nat (List.length b + List.length w)) with (i + Z.of_nat (S (List.length b) + List.length w)) by lia. exact Hs.
Qed.

Lemma tok_at t d n : token t -> holds d 0 (tok_text t) -> (forall j, Z.of_nat (List.length (tok_text t)) <= j < 20 -> d j = 32) ->
  n = 20%nat -> token_at n 0 d = Some (t_word t).
Proof.
  intros (Hb & Hw & Hne & Ha & Hl) Hh Hr ->. unfold tok_text in *. rewrite app_assoc in Hh. rewrite !app_length in *.
  apply holds_app in Hh as [Hh Hx]. apply (token_at_word d (t_before t)); auto; [|lia].
  rewrite app_length in Hx. cbn [Z.add] in *.
  destruct (t_after t) as [|c r] eqn:Er.
  - cbn [List.length] in *. rewrite Hr by lia. reflexivity.
  - apply holds_cons in Hx as [H0 _]. rewrite H0. inversion Ha as [|? ? Hc _]; subst. unfold blank in Hc. unfold isspace. lia.
Qed.

Lemma find_nul_some d n : forall i m, (forall j, i <= j < m -> d j mod 256 <> 0) -> i <= m ->
  (exists z, m <= z < i + Z.of_nat n /\ d z mod 256 = 0) ->
  exists L, find_nul n i d = Some L /\ m <= L < i + Z.of_nat n /\ d L mod 256 = 0 /\ (forall j, i <= j < L -> d j mod 256 <> 0).
Proof.
  induction n as [|n IH]; intros i m Hj Him (z & Hz & H0); [lia|]. cbn [find_nul].
  destruct (Z.eqb_spec (d i mod 256) 0) as [E|E].
  - exists i. split; [reflexivity|]. destruct (Z.eq_dec i m) as [->|Hne]; [|exfalso; apply (Hj i); lia]. repeat split; try lia; intros; lia.
  - destruct (IH (i + 1) (Z.max m (i + 1))) as (L & E1 & H1 & H2 & H3).
    + intros j Hji. apply Hj. lia.
    + lia.
    + exists z. split; [|auto]. destruct (Z.eq_dec z i) as [->|]; [congruence|lia].
    + exists L. split; [exact E1|]. split; [lia|]. split; [auto|]. intros j Hji. destruct (Z.eq_dec j i) as [->|]; [auto|apply H3; lia].
Qed.
Lemma find_nul_none d n : forall i, (forall j, i <= j < i + Z.of_nat n -> d j mod 256 <> 0) -> find_nul n i d = None.
Proof.
  induction n as [|n IH]; intros i H; [reflexivity|]. cbn. replace (d i mod 256 =? 0) with false by (specialize (H i); lia).
  apply IH. intros j Hj. apply H. lia.
Qed.

Lemma iterS_app {S} a : forall b i (f : Z -> S -> M S) x e s,
  iterS (a + b) i f x e s = (y <- iterS a i f x ;; iterS b (i + Z.of_nat a) f y) e s.
Proof.
  induction a as [|a IH]; intros b i f x e s.
  - cbn. now rewrite Z.add_0_r.
  - cbn [iterS Nat.add]. unfold bind. destruct (f i x e s) as [y s'| | |]; auto.
    specialize (IH b (i + 1) f y e s'). unfold bind in IH. rewrite IH.
    replace (i + Z.of_nat (Datatypes.S a)) with (i + 1 + Z.of_nat a) by lia. reflexivity.
Qed.

Section Wave.
  Variables (strtod : list Z -> sf) (e : env) (s : st) (qw qv : nat) (nw nv : Z) (dw dv0 : Z -> Z) (bands : Z).
  Hypothesis Hs : heap_ok s.
  Hypothesis Iw : isb s qw nw dw. Hypothesis Iv : isb s qv nv dv0. Hypothesis Hne : qw <> qv.
  Let k := List.length (objs s).
  Let step := read_wavelength_step strtod (Some qw) (Some qv) (Some k) bands.

  Definition W (dv dt : Z -> Z) : st :=
    mkSt (objs (putd s qv dv) ++ [mkObj (e_addr e k) 20 k true (CBytes dt)]) (files s).

  Lemma qv_lt : (qv < k)%nat.
  Proof. apply isb_obj in Iv as (a & r & H). apply nth_error_Some. fold k. unfold k. congruence. Qed.
  Lemma qw_lt : (qw < k)%nat.
  Proof. apply isb_obj in Iw as (a & r & H). apply nth_error_Some. fold k. unfold k. congruence. Qed.
  Lemma W_t dv dt : isb (W dv dt) k 20 dt.
  Proof.
    eapply obj_isb. unfold W; cbn [objs]. rewrite nth_error_app2 by (rewrite putd_length; lia). rewrite putd_length.
    fold k. rewrite Nat.sub_diag. reflexivity.
  Qed.
  Lemma W_v dv dt : isb (W dv dt) qv nv dv.
  Proof. unfold W. apply (isb_app_old (putd s qv dv)). eapply isb_putd_eq; eauto. Qed.
  Lemma W_w dv dt : isb (W dv dt) qw nw dw.
  Proof. unfold W. apply (isb_app_old (putd s qv dv)). apply isb_putd_ne; auto. Qed.
  Lemma W_putt dv dt dt' : putd (W dv dt) k dt' = W dv dt'.
  Proof.
    unfold W. unfold putd at 1. cbn [objs files]. f_equal.
    replace k with (List.length (objs (putd s qv dv))) at 1 by apply putd_length. rewrite lupd_app_new0. reflexivity.
  Qed.
  Lemma W_putv dv dt dv' : putd (W dv dt) qv dv' = W dv' dt.
  Proof.
    pose proof qv_lt. unfold W. unfold putd at 1. cbn [objs files]. f_equal. rewrite lupd_app1 by (rewrite putd_length; auto). f_equal.
    exact (f_equal objs (putd_putd s qv dv dv')).
  Qed.

  Lemma blank_run dv dt : exists dt', blank_tmp (Some k) e (W dv dt) = Ret tt (W dv dt') /\ forall j, 0 <= j < 20 -> dt' j = 32.
  Proof.
    destruct (for_inv e 0 20 (fun i => store8 (Some k) i 32)
      (fun i x => exists dt', x = W dv dt' /\ forall j, 0 <= j < i -> dt' j = 32) (W dv dt)) as (s' & E & dt' & -> & H).
    - lia.
    - exists dt. split; [reflexivity|]. intros; lia.
    - intros i x Hi (dt' & -> & H). eexists. split; [apply (store8_ok e _ _ 20 dt'); [apply W_t|lia]|].
      rewrite W_putt. eexists. split; [reflexivity|]. intros j Hj. unfold fupd. destruct (Z.eqb_spec j i) as [->|]; [reflexivity|apply H; lia].
    - exists dt'. split; [exact E|exact H].
  Qed.

  (** Characters that are no separators are collected. *)
  Lemma chars_run n dv l : n <> bands -> Forall (fun c => 0 <= c < 256 /\ c <> 44 /\ c <> 125) l -> forall i t dt,
    holds dw i l -> 0 <= i -> i + Z.of_nat (List.length l) <= nw -> 0 <= t -> t + Z.of_nat (List.length l) <= 20 ->
    exists dt', iterS (List.length l) i step (t, n, false) e (W dv dt) = Ret (t + Z.of_nat (List.length l), n, false) (W dv dt')
      /\ holds dt' t l /\ forall j, ~ t <= j < t + Z.of_nat (List.length l) -> dt' j = dt j.
  Proof.
    intros Hn F. induction F as [|c l Hc F IH]; intros i t dt Hh Hi Hin Ht Htn.
    - exists dt. cbn. rewrite Z.add_0_r. split; [reflexivity|]. split; [apply holds_nil|auto].
    - apply holds_cons in Hh as [H0 Hh]. cbn [List.length] in Hin, Htn |- *. cbn [iterS].
      assert (E : step i (t, n, false) e (W dv dt) = Ret (t + 1, n, false) (W dv (fupd dt t c))).
      { unfold step, read_wavelength_step. runs (load8_ok e _ qw nw dw i (W_w dv dt) ltac:(lia)). rewrite H0.
        replace (negb (c =? 44) && negb (c =? 125)) with true by lia.
        rewrite (bind_ret _ _ e (W dv dt) (t + 1, n) (W dv (fupd dt t c))).
        - cbn [fst snd]. replace ((c =? 125) || (n =? bands)) with false by lia. reflexivity.
        - runs (store8_ok e _ k 20 dt t c (W_t dv dt) ltac:(lia)). rewrite W_putt. now replace (c mod 256) with c by lia. }
      runs E. destruct (IH (i + 1) (t + 1) (fupd dt t c) Hh ltac:(lia) ltac:(lia) ltac:(lia) ltac:(lia)) as (dt' & E' & H' & O').
      exists dt'. split; [rewrite E'; f_equal; f_equal; f_equal; lia|]. split.
      + apply holds_cons. split; [|exact H']. rewrite O' by lia. unfold fupd. rewrite Z.eqb_refl. lia.
      + intros j Hj. rewrite O' by lia. unfold fupd. destruct (Z.eqb_spec j t); [lia|reflexivity].
  Qed.

  Lemma sep_run n dv dt t c i tk : holds dw i [c] -> (c = 44 \/ c = 125) -> 0 <= i < nw -> 0 <= n -> 4 * n + 4 <= nv ->
    token tk -> holds dt 0 (tok_text tk) -> (forall j, Z.of_nat (List.length (tok_text tk)) <= j < 20 -> dt j = 32) ->
    exists dv' dt', step i (t, n, false) e (W dv dt) = Ret (0, n + 1, (c =? 125) || (n + 1 =? bands)) (W dv' dt')
      /\ (forall j, 0 <= j < 20 -> dt' j = 32)
      /\ word dv' (4 * n) 4 = bits_of_fl (fl_of_db (strtod (t_word tk))) mod 4294967296
      /\ (forall j, ~ 4 * n <= j < 4 * n + 4 -> dv' j = dv j).
  Proof.
    intros Hc Hcc Hi Hn Hnv Htk Hh Hr. apply holds_cons in Hc as [H0 _].
    destruct (storele_ok e (W dv dt) qv nv dv 4 (bits_of_fl (fl_of_db (strtod (t_word tk)))) (4 * n) (W_v dv dt) ltac:(lia) ltac:(lia)) as (dv' & Es & Hw & Ho).
    rewrite W_putv in Es. destruct (blank_run dv' dt) as (dt' & Eb & Hb). exists dv', dt'.
    split; [|split; [exact Hb|split; [exact Hw|exact Ho]]].
    unfold step, read_wavelength_step. runs (load8_ok e _ qw nw dw i (W_w dv dt) Hi). rewrite H0.
    replace (negb (c =? 44) && negb (c =? 125)) with false by lia.
    rewrite (bind_ret _ _ e (W dv dt) (0, n + 1) (W dv' dt')).
    - reflexivity.
    - rewrite (bind_ret _ _ e (W dv dt) (strtod (t_word tk)) (W dv dt)).
      + unfold storef. runs Es. runs Eb. reflexivity.
      + unfold atof. pose proof (W_t dv dt) as It. unfold isb in It. rewrite It.
        now rewrite (tok_at tk dt (Z.to_nat 20) Htk Hh Hr) by reflexivity.
  Qed.

  Lemma tok_plain tk : token tk -> Forall (fun c => 0 <= c < 256 /\ c <> 44 /\ c <> 125) (tok_text tk).
  Proof.
    intros (Hb & Hw & _ & Ha & _). unfold tok_text. rewrite !Forall_app. repeat split.
    - eapply Forall_impl; [|exact Hb]. unfold blank. intros; lia.
    - eapply Forall_impl; [|exact Hw]. unfold word_char. intros; lia.
    - eapply Forall_impl; [|exact Ha]. unfold blank. intros; lia.
  Qed.

  (** One token and its separator. *)
  Lemma tok_run n dv dt c i tk : holds dw i (tok_text tk ++ [c]) -> (c = 44 \/ c = 125) -> 0 <= i ->
    i + Z.of_nat (List.length (tok_text tk)) < nw -> 0 <= n < bands -> 4 * n + 4 <= nv ->
    token tk -> (forall j, 0 <= j < 20 -> dt j = 32) ->
    exists dv' dt', iterS (List.length (tok_text tk ++ [c])) i step (0, n, false) e (W dv dt)
        = Ret (0, n + 1, (c =? 125) || (n + 1 =? bands)) (W dv' dt')
      /\ (forall j, 0 <= j < 20 -> dt' j = 32)
      /\ word dv' (4 * n) 4 = bits_of_fl (fl_of_db (strtod (t_word tk))) mod 4294967296
      /\ (forall j, ~ 4 * n <= j < 4 * n + 4 -> dv' j = dv j).
  Proof.
    intros Hh Hc Hi Hin Hn Hnv Htk Hr. apply holds_app in Hh as [Hh Hx].
    pose proof Htk as (_ & _ & _ & _ & Hl).
    destruct (chars_run n dv (tok_text tk) ltac:(lia) (tok_plain tk Htk) i 0 dt Hh Hi ltac:(lia) ltac:(lia) ltac:(lia)) as (dt1 & E1 & H1 & O1).
    rewrite app_length. cbn [List.length]. rewrite iterS_app. runs E1.
    destruct (sep_run n dv dt1 (0 + Z.of_nat (List.length (tok_text tk))) c _ tk Hx Hc ltac:(lia) ltac:(lia) Hnv Htk H1) as (dv' & dt' & E2 & Q).
    { intros j Hj. rewrite O1 by lia. apply Hr. lia. }
    exists dv', dt'. split; [|exact Q]. cbn [iterS]. runs E2. reflexivity.
  Qed.

  Lemma word_ext d d' off m : (forall j, off <= j < off + Z.of_nat m -> d' j = d j) -> word d' off m = word d off m.
  Proof.
    revert off. induction m as [|m IH]; intros off H; [reflexivity|]. cbn. rewrite IH by (intros; apply H; lia). rewrite H by lia. reflexivity.
  Qed.

  Definition stored (dv : Z -> Z) (n : Z) (tk : tok) : Prop :=
    word dv (4 * n) 4 = bits_of_fl (fl_of_db (strtod (t_word tk))) mod 4294967296.

  (** Tokens followed by commas, before the last one. *)
  Lemma list_run l : Forall token l -> forall n dv dt i,
    holds dw i (comma_list l) -> 0 <= i -> i + Z.of_nat (List.length (comma_list l)) <= nw ->
    0 <= n -> n + Z.of_nat (List.length l) < bands -> 4 * (n + Z.of_nat (List.length l)) <= nv ->
    (forall j, 0 <= j < 20 -> dt j = 32) ->
    exists dv' dt', iterS (List.length (comma_list l)) i step (0, n, false) e (W dv dt)
        = Ret (0, n + Z.of_nat (List.length l), false) (W dv' dt')
      /\ (forall j, 0 <= j < 20 -> dt' j = 32)
      /\ (forall m, (m < List.length l)%nat -> stored dv' (n + Z.of_nat m) (nth m l (mkTok [] [] [])))
      /\ (forall j, ~ 4 * n <= j < 4 * (n + Z.of_nat (List.length l)) -> dv' j = dv j).
  Proof.
    induction 1 as [|tk l Htk F IH]; intros n dv dt i Hh Hi Hin Hn Hb Hnv Hr.
    - exists dv, dt. cbn. rewrite Z.add_0_r. split; [reflexivity|]. split; [exact Hr|]. split; [intros; lia|auto].
    - unfold comma_list in *. cbn [map List.concat List.length] in *. apply holds_app in Hh as [Hh Hx].
      rewrite app_length in Hin |- *. rewrite iterS_app.
      rewrite app_length in Hin. cbn [List.length] in Hin.
      destruct (tok_run n dv dt 44 i tk Hh ltac:(auto) Hi ltac:(lia) ltac:(lia) ltac:(lia) Htk Hr) as (dv1 & dt1 & E1 & R1 & S1 & O1).
      runs E1. change (44 =? 125) with false. cbn [orb]. replace (n + 1 =? bands) with false by lia.
      destruct (IH (n + 1) dv1 dt1 _ Hx ltac:(lia) ltac:(rewrite app_length; cbn [List.length]; lia) ltac:(lia) ltac:(lia) ltac:(lia) R1) as (dv' & dt' & E2 & R2 & S2 & O2).
      exists dv', dt'. split; [rewrite E2; f_equal; f_equal; f_equal; lia|]. split; [exact R2|]. split.
      + intros [|m] Hm; cbn [nth].
        * unfold stored. rewrite Z.add_0_r. rewrite <- S1. apply word_ext. intros j Hj. apply O2. lia.
        * specialize (S2 m ltac:(lia)). replace (n + Z.of_nat (S m)) with (n + 1 + Z.of_nat m) by lia. exact S2.
      + intros j Hj. rewrite O2 by lia. apply O1. lia.
  Qed.

  (** After the end. *)
  Lemma done_run m : forall i t n x, iterS m i step (t, n, true) e x = Ret (t, n, true) x.
  Proof. induction m as [|m IH]; intros; [reflexivity|]. cbn [iterS]. rewrite (bind_ret _ _ e x (t, n, true) x eq_refl). apply IH. Qed.

  Definition Wdead (dv : Z -> Z) (dt : Z -> Z) : st :=
    mkSt (objs (putd s qv dv) ++ [mkObj (e_addr e k) 20 k false (CBytes dt)]) (files s).

  Lemma heap_ok_putd dv : heap_ok (putd s qv dv).
  Proof.
    intros i o H. rewrite putd_length. unfold putd in H; cbn [objs] in H. destruct (Nat.eq_dec i qv) as [->|Hiq].
    - rewrite lupd_nth_eq in H. destruct (nth_error (objs s) qv) as [o'|] eqn:E; [|discriminate]. cbn in H. injection H as <-.
      specialize (Hs _ _ E). destruct o'; exact Hs.
    - rewrite lupd_nth_ne in H by auto. eauto.
  Qed.

  Lemma free_tmp dv dt : free (Some k) e (W dv dt) = Ret tt (Wdead dv dt).
  Proof.
    rewrite (free_ok e _ k (mkObj (e_addr e k) 20 k true (CBytes dt))); [| |reflexivity|reflexivity].
    2:{ unfold W; cbn [objs]. rewrite nth_error_app2 by (rewrite putd_length; lia). rewrite putd_length. fold k. rewrite Nat.sub_diag. reflexivity. }
    f_equal. unfold W, Wdead. cbn [objs files]. f_equal. rewrite map_app. f_equal.
    - apply map_kill_old; [apply heap_ok_putd|]. rewrite putd_length. fold k. lia.
    - cbn [map]. unfold kill_root. cbn [o_root]. rewrite Nat.eqb_refl. reflexivity.
  Qed.

  Lemma start_run : exists dt, (tmp <- malloc MAXWAVECHAR ;; blank_tmp tmp ;;; ret tmp) e s = Ret (Some k) (W dv0 dt)
    /\ forall j, 0 <= j < 20 -> dt j = 32.
  Proof.
    assert (E : malloc MAXWAVECHAR e s = Ret (Some k) (W dv0 (e_junk e k))).
    { rewrite malloc_new by (unfold MAXWAVECHAR; lia). fold k. f_equal. unfold W. now rewrite (putd_id _ _ _ _ Iv). }
    destruct (blank_run dv0 (e_junk e k)) as (dt & Eb & H). exists dt. split; [|exact H]. runs E. runs Eb. reflexivity.
  Qed.

  (** The list closed by a brace, or with as many tokens as bands. *)
  Lemma closed_run l tk c : Forall token l -> token tk -> c = 44 \/ c = 125 ->
    holds dw 0 (comma_list l ++ tok_text tk ++ [c]) ->
    (exists z, Z.of_nat (List.length (comma_list l ++ tok_text tk ++ [c])) <= z < nw /\ dw z mod 256 = 0) ->
    Z.of_nat (List.length l) + 1 <= bands -> 4 * (Z.of_nat (List.length l) + 1) <= nv ->
    c = 125 \/ bands = Z.of_nat (List.length l) + 1 ->
    exists dv' dt, read_wavelength strtod (Some qw) (Some qv) bands e s = Ret tt (Wdead dv' dt)
      /\ (forall m, (m < List.length l)%nat -> stored dv' (Z.of_nat m) (nth m l (mkTok [] [] [])))
      /\ stored dv' (Z.of_nat (List.length l)) tk
      /\ (forall j, ~ 0 <= j < 4 * (Z.of_nat (List.length l) + 1) -> dv' j = dv0 j).
  Proof.
    intros Fl Ft Hc Hh (z & Hz & H0) Hb Hnv Hend. set (T := comma_list l ++ tok_text tk ++ [c]) in *.
    assert (NZ : forall j, 0 <= j < Z.of_nat (List.length T) -> dw j mod 256 <> 0).
    { intros j Hj. specialize (Hh (Z.to_nat j) ltac:(lia)). replace (0 + Z.of_nat (Z.to_nat j)) with j in Hh by lia. rewrite Hh.
      assert (Hin : In (nth (Z.to_nat j) T 0) T) by (apply nth_In; lia). revert Hin. generalize (nth (Z.to_nat j) T 0). intros x Hin ->.
      assert (P : forall t, token t -> ~ In 0 (tok_text t)).
      { clear. intros t (Hb & Hw & _ & Ha & _). unfold tok_text. intros X. rewrite !in_app_iff in X.
        rewrite Forall_forall in Hb, Hw, Ha. destruct X as [X|[X|X]]; [apply Hb in X|apply Hw in X|apply Ha in X]; unfold blank, word_char in X; lia. }
      unfold T in Hin. rewrite !in_app_iff in Hin. destruct Hin as [X|[X|[X|[]]]]; [|eapply P; eauto|lia].
      unfold comma_list in X. apply in_concat in X as (y & Hy & Hy0). apply in_map_iff in Hy as (t & <- & Ht).
      rewrite Forall_forall in Fl. apply in_app_iff in Hy0 as [X|[X|[]]]; [|lia]. eapply P; [apply Fl; eauto|auto]. }
    destruct (find_nul_some dw (Z.to_nat nw) 0 (Z.of_nat (List.length T)) NZ ltac:(lia) ltac:(exists z; split; [lia|auto])) as (L & EL & HL & _).
    destruct start_run as (dt0 & E0 & R0).
    unfold T in Hh. apply holds_app in Hh as [Hh1 Hh2]. cbn [Z.add] in Hh2.
    set (a := List.length (comma_list l)) in *. set (b := List.length (tok_text tk ++ [c])) in *.
    assert (HT : List.length T = (a + b)%nat) by (unfold T; rewrite app_length; reflexivity).
    assert (Hb1 : b = (List.length (tok_text tk) + 1)%nat) by (unfold b; rewrite app_length; reflexivity).
    destruct (list_run l Fl 0 dv0 dt0 0 Hh1 ltac:(lia) ltac:(fold a; lia) ltac:(lia) ltac:(lia) ltac:(lia) R0) as (dv1 & dt1 & E1 & R1 & S1 & O1).
    destruct (tok_run (0 + Z.of_nat (List.length l)) dv1 dt1 c (Z.of_nat a) tk Hh2 Hc ltac:(lia) ltac:(lia) ltac:(lia) ltac:(lia) Ft R1) as (dv2 & dt2 & E2 & R2 & S2 & O2).
    exists dv2, dt2. split.
    - unfold read_wavelength.
      assert (A : forall (K : ptr -> M unit), (tmp <- malloc MAXWAVECHAR ;; blank_tmp tmp ;;; K tmp) e s = K (Some k) e (W dv0 dt0)).
      { intros K. revert E0. unfold bind. destruct (malloc MAXWAVECHAR e s) as [q s1| | |]; try discriminate.
        destruct (blank_tmp q e s1) as [[] s2| | |]; try discriminate. cbn. intros [= -> ->]. reflexivity. }
      rewrite (A (fun tmp => len <- strlen (Some qw) ;; forS 0 len (read_wavelength_step strtod (Some qw) (Some qv) tmp bands) (0, 0, false) ;;; free tmp)).
      assert (El : strlen (Some qw) e (W dv0 dt0) = Ret L (W dv0 dt0)).
      { unfold strlen. pose proof (W_w dv0 dt0) as I. unfold isb in I. rewrite I, EL. reflexivity. }
      runs El. fold step. unfold forS.
      replace (Z.to_nat (L - 0)) with (a + (b + (Z.to_nat L - (a + b))))%nat by lia.
      rewrite (bind_ret _ _ e (W dv0 dt0) (0, 0 + Z.of_nat (List.length l) + 1, true) (W dv2 dt2)); [apply free_tmp|].
      rewrite iterS_app. fold a in E1. runs E1. rewrite iterS_app. cbn [Z.add] in *. fold b in E2. runs E2.
      replace ((c =? 125) || (Z.of_nat (List.length l) + 1 =? bands)) with true by lia. apply done_run.
    - cbn [Z.add] in *. split; [|split].
      + intros m Hm. specialize (S1 m Hm). unfold stored in *. rewrite <- S1. apply word_ext. intros j Hj. apply O2. lia.
      + exact S2.
      + intros j Hj. rewrite O2 by lia. apply O1. lia.
  Qed.

  (** A list that simply ends: the last token is not stored. *)
  Lemma open_run l tk : Forall token l -> token tk ->
    holds dw 0 (comma_list l ++ tok_text tk ++ [0]) -> Z.of_nat (List.length (comma_list l ++ tok_text tk ++ [0])) <= nw ->
    Z.of_nat (List.length l) + 1 <= bands -> 4 * (Z.of_nat (List.length l) + 1) <= nv ->
    exists dv' dt, read_wavelength strtod (Some qw) (Some qv) bands e s = Ret tt (Wdead dv' dt)
      /\ (forall m, (m < List.length l)%nat -> stored dv' (Z.of_nat m) (nth m l (mkTok [] [] [])))
      /\ (forall j, ~ 0 <= j < 4 * Z.of_nat (List.length l) -> dv' j = dv0 j).
  Proof.
    intros Fl Ft Hh Hz Hb Hnv. set (T := comma_list l ++ tok_text tk) in *.
    rewrite app_assoc in Hh, Hz. fold T in Hh, Hz. rewrite app_length in Hz. cbn [List.length] in Hz.
    apply holds_app in Hh as [Hh H0]. apply holds_cons in H0 as [H0 _]. cbn [Z.add] in H0.
    assert (NZ : forall j, 0 <= j < Z.of_nat (List.length T) -> dw j mod 256 <> 0).
    { intros j Hj. specialize (Hh (Z.to_nat j) ltac:(lia)). replace (0 + Z.of_nat (Z.to_nat j)) with j in Hh by lia. rewrite Hh.
      assert (Hin : In (nth (Z.to_nat j) T 0) T) by (apply nth_In; lia). revert Hin. generalize (nth (Z.to_nat j) T 0). intros x Hin ->.
      assert (P : forall t, token t -> ~ In 0 (tok_text t)).
      { clear. intros t (Hb & Hw & _ & Ha & _). unfold tok_text. intros X. rewrite !in_app_iff in X.
        rewrite Forall_forall in Hb, Hw, Ha. destruct X as [X|[X|X]]; [apply Hb in X|apply Hw in X|apply Ha in X]; unfold blank, word_char in X; lia. }
      unfold T in Hin. rewrite !in_app_iff in Hin. destruct Hin as [X|X]; [|eapply P; eauto].
      unfold comma_list in X. apply in_concat in X as (y & Hy & Hy0). apply in_map_iff in Hy as (t & <- & Ht).
      rewrite Forall_forall in Fl. apply in_app_iff in Hy0 as [X|[X|[]]]; [|lia]. eapply P; [apply Fl; eauto|auto]. }
    destruct (find_nul_some dw (Z.to_nat nw) 0 (Z.of_nat (List.length T)) NZ ltac:(lia) ltac:(exists (Z.of_nat (List.length T)); split; [lia|exact H0])) as (L & EL & HL & _ & HLn).
    assert (L = Z.of_nat (List.length T)) as ->.
    { destruct (Z.eq_dec L (Z.of_nat (List.length T))) as [|Hx]; [auto|]. exfalso. apply (HLn (Z.of_nat (List.length T))); [lia|exact H0]. }
    destruct start_run as (dt0 & E0 & R0).
    unfold T in Hh. apply holds_app in Hh as [Hh1 Hh2]. cbn [Z.add] in Hh2.
    set (a := List.length (comma_list l)) in *. set (b := List.length (tok_text tk)) in *.
    assert (HT : List.length T = (a + b)%nat) by (unfold T; rewrite app_length; reflexivity).
    destruct (list_run l Fl 0 dv0 dt0 0 Hh1 ltac:(lia) ltac:(fold a; lia) ltac:(lia) ltac:(lia) ltac:(lia) R0) as (dv1 & dt1 & E1 & R1 & S1 & O1).
    pose proof Ft as (_ & _ & _ & _ & Hl20).
    destruct (chars_run (0 + Z.of_nat (List.length l)) dv1 (tok_text tk) ltac:(lia) (tok_plain tk Ft) (Z.of_nat a) 0 dt1 Hh2 ltac:(lia) ltac:(fold b; lia) ltac:(lia) ltac:(fold b; lia)) as (dt2 & E2 & _).
    exists dv1, dt2. split.
    - unfold read_wavelength.
      assert (A : forall (K : ptr -> M unit), (tmp <- malloc MAXWAVECHAR ;; blank_tmp tmp ;;; K tmp) e s = K (Some k) e (W dv0 dt0)).
      { intros K. revert E0. unfold bind. destruct (malloc MAXWAVECHAR e s) as [q s1| | |]; try discriminate.
        destruct (blank_tmp q e s1) as [[] s2| | |]; try discriminate. cbn. intros [= -> ->]. reflexivity. }
      rewrite (A (fun tmp => len <- strlen (Some qw) ;; forS 0 len (read_wavelength_step strtod (Some qw) (Some qv) tmp bands) (0, 0, false) ;;; free tmp)).
      assert (El : strlen (Some qw) e (W dv0 dt0) = Ret (Z.of_nat (List.length T)) (W dv0 dt0)).
      { unfold strlen. pose proof (W_w dv0 dt0) as I. unfold isb in I. rewrite I, EL. reflexivity. }
      runs El. fold step. unfold forS.
      replace (Z.to_nat (Z.of_nat (List.length T) - 0)) with (a + b)%nat by lia.
      erewrite bind_ret; [apply free_tmp|].
      rewrite iterS_app. fold a in E1. runs E1. cbn [Z.add] in *. fold b in E2. exact E2.
    - cbn [Z.add] in *. split; [exact S1|exact O1].
  Qed.

  (** A buffer without a terminator. *)
  Lemma no_nul_run : (forall j, 0 <= j < nw -> dw j mod 256 <> 0) -> read_wavelength strtod (Some qw) (Some qv) bands e s = UB.
  Proof.
    intros H. destruct start_run as (dt0 & E0 & R0). unfold read_wavelength.
    assert (A : forall (K : ptr -> M unit), (tmp <- malloc MAXWAVECHAR ;; blank_tmp tmp ;;; K tmp) e s = K (Some k) e (W dv0 dt0)).
    { intros K. revert E0. unfold bind. destruct (malloc MAXWAVECHAR e s) as [q s1| | |]; try discriminate.
      destruct (blank_tmp q e s1) as [[] s2| | |]; try discriminate. cbn. intros [= -> ->]. reflexivity. }
    rewrite (A (fun tmp => len <- strlen (Some qw) ;; forS 0 len (read_wavelength_step strtod (Some qw) (Some qv) tmp bands) (0, 0, false) ;;; free tmp)).
    apply bind_ub. unfold strlen. pose proof (W_w dv0 dt0) as I. unfold isb in I. rewrite I, find_nul_none; [reflexivity|]. intros j Hj. apply H. lia.
  Qed.
End Wave.
