(** * Specifications: what a text of numbers is.  [scan] is the outcome of one
    call of fscanf with "%f"; scanf_ is that call, as a function of the text. *)
From Verif Require Import Base ModelFloat ModelSpectral SpecBase SpecNum.
Open Scope Z_scope.

(** From the text t fscanf reads the values vs, one after the other, and leaves t'. *)
Fixpoint reads (scanf_ : list Z -> scan) (t : list Z) (vs : list sf) (t' : list Z) : Prop :=
  match vs with
  | [] => t' = t
  | v :: r => fl_ok v /\ exists rest, scanf_ t = ScanValue v rest /\ reads scanf_ rest r t'
  end.
(** The text is finished; the text does not continue with a number (fscanf then
    leaves it where it is). *)
Definition finished (scanf_ : list Z -> scan) (t : list Z) : Prop := scanf_ t = ScanEnd.
Definition stuck (scanf_ : list Z -> scan) (t : list Z) : Prop := scanf_ t = ScanFail t.
