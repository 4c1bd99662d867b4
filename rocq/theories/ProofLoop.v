(** * Loops that end in undefined behaviour. *)
From Verif Require Import Base Logic.
From Coq Require Import Lia ZifyBool ZifyNat.
Open Scope Z_scope.

(** Every step keeps I or is undefined, and step k is undefined. *)
Lemma for_ub_some e lo hi body (I : st -> Prop) k s : lo <= k < hi -> I s ->
  (forall i s1, lo <= i < hi -> I s1 -> body i e s1 = UB \/ exists s2, body i e s1 = Ret tt s2 /\ I s2) ->
  (forall s1, I s1 -> body k e s1 = UB) ->
  for_ lo hi body e s = UB.
Proof.
  intros Hk. remember (Z.to_nat (k - lo)) as n eqn:Hn. revert lo s Hk Hn.
  induction n as [|n IH]; intros lo s Hk Hn Hs Hi Hu.
  - assert (k = lo) by lia. subst k. rewrite for_first by lia. apply bind_ub. auto.
  - rewrite for_first by lia. destruct (Hi lo s ltac:(lia) Hs) as [U|(s2 & E & H2)].
    + now apply bind_ub.
    + rewrite (bind_ret _ _ _ _ _ _ E). apply IH; auto; try lia. intros i s1 H1. apply Hi. lia.
Qed.

(** The same without an undefined step in view. *)
Lemma for_either e lo hi body (I : st -> Prop) s : I s ->
  (forall i s1, lo <= i < hi -> I s1 -> body i e s1 = UB \/ exists s2, body i e s1 = Ret tt s2 /\ I s2) ->
  for_ lo hi body e s = UB \/ exists s', for_ lo hi body e s = Ret tt s' /\ I s'.
Proof.
  remember (Z.to_nat (hi - lo)) as n eqn:Hn. revert lo s Hn.
  induction n as [|n IH]; intros lo s Hn Hs Hi.
  - right. exists s. split; auto. apply for_empty. lia.
  - rewrite for_first by lia. destruct (Hi lo s ltac:(lia) Hs) as [U|(s2 & E & H2)].
    + left. now apply bind_ub.
    + rewrite (bind_ret _ _ _ _ _ _ E). apply IH; auto; try lia. intros i s1 H1. apply Hi. lia.
Qed.
