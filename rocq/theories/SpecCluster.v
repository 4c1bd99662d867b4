(** * What k-means should do. *)
From Verif Require Import Base SpecBase SpecNum SpecPixel SpecVector.
Open Scope Z_scope.

(** Pixel (i, j) is in line i and column j; a centre is a pair (x, y) = (column, line). *)
Definition sqdist (c : Z * Z) (i j : Z) : Z := (fst c - j) * (fst c - j) + (snd c - i) * (snd c - i).

(** Of the centres c 0 ... c (K-1), number k is the first nearest to pixel (i, j). *)
Definition first_nearest (K : Z) (c : Z -> Z * Z) (i j k : Z) : Prop :=
  0 <= k < K
  /\ (forall k', 0 <= k' < K -> sqdist (c k) i j <= sqdist (c k') i j)
  /\ (forall k', 0 <= k' < k -> sqdist (c k) i j < sqdist (c k') i j).

(** All pixels of an image, line by line. *)
Definition upto_list (n : Z) : list Z := map Z.of_nat (seq 0 (Z.to_nat n)).
Definition pixel_line (cols i : Z) : list (Z * Z) := map (fun j => (i, j)) (upto_list cols).
Definition pixels (rows cols : Z) : list (Z * Z) := flat_map (pixel_line cols) (upto_list rows).

(** The sum of a quantity over a list, and the mean position rounded down
    ((0, 0) of no pixels). *)
Definition total (f : Z * Z -> Z) (l : list (Z * Z)) : Z := fold_right (fun p a => f p + a) 0 l.
Definition centroid (l : list (Z * Z)) : Z * Z :=
  match l with
  | [] => (0, 0)
  | _ => (total snd l / Z.of_nat (length l), total fst l / Z.of_nat (length l))
  end.

(** One round: every lit pixel gets the label of the first nearest centre, and
    each new centre is the centroid of the lit pixels with its label. *)
Definition kmeans_round (rows cols : Z) (lit : Z -> Z -> bool) (K : Z) (c c' : Z -> Z * Z) : Prop :=
  exists label : Z -> Z -> Z,
    (forall i j, 0 <= i < rows -> 0 <= j < cols -> lit i j = true -> first_nearest K c i j (label i j))
    /\ forall k, 0 <= k < K ->
         c' k = centroid (filter (fun p => lit (fst p) (snd p) && (label (fst p) (snd p) =? k)) (pixels rows cols)).

(** No centre has moved right or down by more than the threshold. *)
Definition settled (K th : Z) (c c' : Z -> Z * Z) : Prop :=
  forall k, 0 <= k < K -> fst (c' k) - fst (c k) <= th /\ snd (c' k) - snd (c k) <= th.

(** The vector at p holds the K points c 0, ..., c (K-1). *)
Definition points (s : st) (p : ptr) (K : Z) (c : Z -> Z * Z) : Prop :=
  forall k, 0 <= k < K ->
    word_at s p (16 + 8 * k) 4 = Some (fst (c k)) /\ word_at s p (16 + 8 * k + 4) 4 = Some (snd (c k)).

(** The pixels that are not black. *)
Definition lit_pixel (s : st) (m : smat) (i j : Z) : bool :=
  match pix s m i j 0 with Some v => negb (v =? 0) | None => false end.

(** After a run of the function from s to s' the vector v1 holds the centres c,
    the rest of the vector and everything else is as before, and no memory is
    left allocated. *)
Definition centres_left (s : st) (v1 : ptr) (K : Z) (c : Z -> Z * Z) (s' : st) : Prop :=
  points s' v1 K c
  /\ (forall p, ~ 16 <= p < 16 + 8 * K -> byte_at s' v1 p = byte_at s v1 p)
  /\ unchanged_except [v1] s s' /\ files s' = files s /\ heap_ok s'.

(** The centres of all rounds: it starts at the given points. *)
Definition kmeans_rounds (rows cols : Z) (lit : Z -> Z -> bool) (K : Z) (c0 : Z -> Z * Z) (cs : nat -> Z -> Z * Z) : Prop :=
  (forall k, 0 <= k < K -> cs O k = c0 k) /\ forall m, kmeans_round rows cols lit K (cs m) (cs (S m)).

(** Round n is the first after which nothing has moved too far. *)
Definition first_settled (K th : Z) (cs : nat -> Z -> Z * Z) (n : nat) : Prop :=
  settled K th (cs n) (cs (S n)) /\ forall m, (m < n)%nat -> ~ settled K th (cs m) (cs (S m)).

(** The pixels of a colour image whose rounded mean over the channels is not 0. *)
Definition lit_colour (s : st) (m : smat) (i j : Z) : bool :=
  match pix s m i j 0, pix s m i j 1, pix s m i j 2 with
  | Some a, Some b, Some c => negb (nearest (a + b + c) 3 =? 0)
  | _, _, _ => false
  end.

(** The random starting points: [rnd] are the values of rand() in order. *)
Definition random_points (rnd : nat -> Z) (rows cols k : Z) : Z * Z :=
  (rnd (Z.to_nat (2 * k)) mod cols, rnd (Z.to_nat (2 * k + 1)) mod rows).
