(** * Concrete cases for the edge energy. *)
From Verif Require Import Base ModelFloat ModelDouble ModelCore SpecBase SpecImage SpecImage2 SpecPixel SpecNum SpecMatrix SpecFilter
  SpecStat SpecSpectral SpecEnergy Fixtures Fixtures2 ProofEx ProofEx3 ProofEx6 ProofSpectral8.
From Verif Require Import ModelSpectral.
From Coq Require Import List Floats.SpecFloat Lia ZifyBool ZifyNat.
Import ListNotations.
Open Scope Z_scope.

Definition st_edge (ch : Z) : st := mkSt (im_objs 0 2 2 1 ch 1 (wordsn 1 [0; 60; 120; 180; 5; 6; 7; 8; 9; 10; 11; 12])) [].
Lemma st_edge_heap ch : 1 <= ch -> heap_ok (st_edge ch).
Proof. intro Hn. ex_heap_tac. Qed.
Lemma st_edge_ok : sm_at (st_edge 1) (Some 0%nat) = Some (im_hdr 0 2 2 1 1 1) /\ readable (st_edge 1) (Some 1%nat) (2 * 2)
  /\ (forall i j, 0 <= i < 2 -> 0 <= j < 2 -> byte_at (st_edge 1) (Some 1%nat) (i * 2 + j) = Some (60 * (2 * i + j)))
  /\ (forall k, e_addr ex_env k mod 64 <> 48).
Proof.
  split; [reflexivity|]. split.
  { do 3 eexists. split; [reflexivity|]. split; [reflexivity|]. cbn. lia. }
  split; [|exact ex_env_64].
  intros i j Hi Hj. assert (i = 0 \/ i = 1) as [-> | ->] by lia; assert (j = 0 \/ j = 1) as [-> | ->] by lia; reflexivity.
Qed.
(** A three channel image: no error, and afterwards its header says one channel. *)
Theorem energy_header : exists pow2 e s p m s' m' r, env_ok e /\ heap_ok s /\ sm_at s p = Some m /\ sm_chan m = 3
  /\ cal_edge_signal_energy pow2 p e s = Ret r s' /\ sm_at s' p = Some m' /\ sm_chan m' = 1.
Proof.
  destruct (out_test (cal_edge_signal_energy (fun x => db_mul x x) (Some 0%nat) ex_env (st_edge 3))
    (fun _ s => match sm_at s (Some 0%nat) with Some m => sm_chan m =? 1 | None => false end)) as (r & s' & E & X); [vm_compute; reflexivity|].
  destruct (sm_at s' (Some 0%nat)) as [m'|] eqn:Hm; [|discriminate].
  exists (fun x => db_mul x x), ex_env, (st_edge 3), (Some 0%nat), (im_hdr 0 2 2 1 3 1), s', m', r.
  split; [exact ex_env_ok|]. split; [apply st_edge_heap; lia|]. split; [reflexivity|]. split; [reflexivity|].
  split; [exact E|]. split; [exact Hm|]. lia.
Qed.
Lemma energy_value : exists r s', cal_edge_signal_energy (fun x => db_mul x x) (Some 0%nat) ex_env (st_edge 1) = Ret r s' /\ sf_num r <> Some 0 /\ sf_num r <> None.
Proof.
  destruct (out_test (cal_edge_signal_energy (fun x => db_mul x x) (Some 0%nat) ex_env (st_edge 1))
    (fun r _ => match sf_num r with Some z => negb (z =? 0) | None => false end)) as (r & s' & E & X); [vm_compute; reflexivity|].
  exists r, s'. split; [exact E|]. destruct (sf_num r) as [z|]; [|discriminate]. split; [|discriminate]. intros [= ->]. discriminate X.
Qed.
