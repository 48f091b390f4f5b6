(** Model of the default of delta: compute_delta and the min() of the costs (lib/src/itm-common.hpp:917-935, 1084-1093, 1329-1342), and its use
    (lib/src/itm-solver-common.hpp:83-86, lib/src/itm-optimizer-common.hpp:638-641). *)
From Verif Require Import Base Rows_model.
Open Scope Z_scope.

Section Delta.
Context {F : Type} (fo : fops F).
(** std::abs *)
Definition f_abs (x : F) : F := if fl_signbit fo x then fl_neg fo x else x.
(** std::min *)
Definition f_min (a b : F) : F := if fl_lt fo b a then b else a.
(** itm-common.hpp:1084-1093 and 1329-1342: [biggest] is std::numeric_limits<Float>::max(), [l] are the linear costs, then the quadratic ones *)
Definition min_cost (biggest : F) (l : list F) : F :=
  fold_left (fun m c => if fl_eqb fo c (fl_of_Z fo 0) then m else f_min m (f_abs c)) l biggest.
(** itm-common.hpp:917-935 *)
Definition compute_delta (biggest theta : F) (l : list F) : F :=
  let mini := min_cost biggest l in fl_sub fo mini (fl_mul fo theta mini).
(** itm-solver-common.hpp:83-86: [delta] is the parameter, [l] the normalized costs *)
Definition used_delta (biggest theta delta : F) (l : list F) : F :=
  if fl_lt fo delta (fl_of_Z fo 0) then compute_delta biggest theta l else delta.
End Delta.
