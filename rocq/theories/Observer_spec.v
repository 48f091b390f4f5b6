(** Vocabulary for the observers: images and colours. *)
From Coq Require Import QArith Qround Qminmax.
From Verif Require Import Base Problem_model Matrix_spec Params_model Observer_model.
Open Scope Z_scope.

(** The three bytes of pixel (i, j) in an image of [width] pixels a line. *)
Definition pixel (img : list Z) (width i j : nat) : list Z :=
  let q := (3 * (i * width + j))%nat in [nth q img 0; nth (q + 1) img 0; nth (q + 2) img 0].
Definition black : list Z := [0; 0; 0].
(** A number, not NaN. *)
Definition number (v : dbl) : Prop := v <> NaN.
(** A byte. *)
Definition byte (z : Z) : Prop := 0 <= z <= 255.
(** The order of the numbers. *)
Definition at_most (a b : dbl) : Prop :=
  match a, b with
  | NaN, _ | _, NaN => False
  | NegInf, _ | _, PosInf => True
  | Fin x, Fin y => (x <= y)%Q
  | _, _ => False
  end.

(** The byte of an intensity: 0 at 0 and below, 255 at 1 and above. *)
Definition clamp01 (q : Q) : Q := Qmax 0 (Qmin 1 q).
Definition level (q : Q) : Z := Qfloor (255 * clamp01 q).
(** The colour at the fraction [t] of the way from the lower to the upper bound: blue, then cyan at a quarter, green in the middle, yellow at
    three quarters, red. *)
Definition shade_at (t : Q) : rgb := mk_rgb (level (4 * t - 2)) (level (Qmin (4 * t) (4 - 4 * t))) (level (2 - 4 * t)).
