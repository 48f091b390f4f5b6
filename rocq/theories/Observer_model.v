(** Model of the observers of solve(): lib/src/observer.hpp and lib/src/pnm.hpp. Bytes are integers. The values observed are
    doubles, computed exactly: an infinity or NaN, or a rational. *)
From Coq Require Import String QArith Qround.
From Verif Require Import Base Problem_model Matrix_model Params_model Validate_model ResultIO_model Writer_model.
Open Scope string_scope.
Open Scope list_scope.
Open Scope Z_scope.

(** ** Colours *)
(** colormap::rgb, pnm.hpp:41-53 *)
Record rgb := mk_rgb { red : Z; green : Z; blue : Z }.
(** static_cast<std::uint8_t>, pnm.hpp:89-91. [None]: the integral part does not fit, which is undefined behaviour. *)
Definition to_byte (q : Q) : option Z :=
  let z := if Qle_bool 0 q then Qfloor q else - Qfloor (- q) in
  if (0 <=? z) && (z <=? 255) then Some z else None.
(** pnm.hpp:65-92, the value once between the bounds. *)
Definition colour (lower upper v : Q) : option rgb :=
  let dv := (upper - lower)%Q in
  let '(r, g, b) :=
    (if negb (Qle_bool (lower + (1 # 4) * dv) v) then (0, 4 * (v - lower) / dv, 1)
     else if negb (Qle_bool (lower + (1 # 2) * dv) v) then (0, 1, 1 + 4 * (lower + (1 # 4) * dv - v) / dv)
     else if negb (Qle_bool (lower + (3 # 4) * dv) v) then (4 * (v - lower - (1 # 2) * dv) / dv, 1, 0)
     else (1, 1 + 4 * (lower + (3 # 4) * dv - v) / dv, 0))%Q in
  do r <- to_byte (r * 255); do g <- to_byte (g * 255); do b <- to_byte (b * 255); Some (mk_rgb r g b).
(** The constructor of colormap (bx_expects, pnm.hpp:55-61) and its operator(), 63-92. NaN passes the comparisons of 68-72 and takes
    the last branch: its conversion is undefined. *)
Definition colormap (lower upper : Q) (v : dbl) : option rgb :=
  if negb (Qle_bool upper lower) then
    match v with
    | NaN => None
    | NegInf => colour lower upper lower
    | PosInf => colour lower upper upper
    | Fin q => colour lower upper (if negb (Qle_bool lower q) then lower else if negb (Qle_bool q upper) then upper else q)
    end
  else None.
(** The three bytes of a pixel, pnm.hpp:107-114. *)
Definition bytes_of (c : rgb) : list Z := [red c; green c; blue c].
(** m_colors[0..2] = ... at byte [off]. [None]: out of the buffer. *)
Definition set_pixel (off : nat) (c : rgb) (buf : list Z) : option (list Z) :=
  do b <- list_upd buf off (red c); do b <- list_upd b (off + 1) (green c); list_upd b (off + 2) (blue c).
(** The header of both files, pnm.hpp:258 and 331 *)
Definition header (width height : Z) : text := str "P6 " ++ show_int width ++ str " " ++ show_int height ++ str " 255 ".
(** The bytes of a text. *)
Definition bytes_of_text (t : text) : list Z := map (fun c => Z.of_N (Ascii.N_of_ascii c)) t.

(** ** The image of the multipliers *)
(** pnm_vector, pnm.hpp:299-304. The file is the bytes written so far. *)
Record pnm_vector := mk_pnm_vector { pv_buffer : option (list Z); pv_file : list Z; pv_height : Z; pv_width : Z; pv_open : bool }.
(** pnm.hpp:315-330: [opened] says if the file could be opened. *)
Definition make_pnm_vector (opened : bool) (m : Z) (loop : Z) : pnm_vector :=
  if opened && (0 <? loop * m)
  then mk_pnm_vector (Some (repeat 0 (Z.to_nat (3 * m)))) (bytes_of_text (header m loop)) loop m opened
  else mk_pnm_vector None [] loop m opened.
(** m_ofs.write(m_buffer.get(), size()): nothing when the stream is not open or the size is 0. [None]: reads through a null pointer. *)
Definition pv_write (p : pnm_vector) : option (list Z) :=
  if pv_open p && (0 <? pv_width p) then do b <- pv_buffer p; Some (pv_file p ++ b) else Some (pv_file p).
(** flush, pnm.hpp:366-373 *)
Definition pv_flush (p : pnm_vector) : option pnm_vector :=
  if pv_height p =? 0 then Some p
  else do f <- pv_write p; Some (mk_pnm_vector (pv_buffer p) f (pv_height p - 1) (pv_width p) (pv_open p)).
(** The destructor, pnm.hpp:332-336 *)
Fixpoint pv_destroy (k : nat) (p : pnm_vector) : option (list Z) :=
  match k with
  | O => Some (pv_file p)
  | S k' => do f <- pv_write p; pv_destroy k' (mk_pnm_vector (pv_buffer p) f (pv_height p - 1) (pv_width p) (pv_open p))
  end.
(** pi_pnm_observer::make_observation, observer.hpp:53-67: the iterator is never advanced. [None]: bx_expects of operator*
    without a buffer, or an access out of bounds. *)
Fixpoint observe_pi (l : list dbl) (buf : option (list Z)) : option (option (list Z)) :=
  match l with
  | [] => Some buf
  | v :: l' => do b <- buf; do c <- colormap (-1) 1 v; do b' <- set_pixel 0 c b; observe_pi l' (Some b')
  end.
(** The loop over [constraints] values reads pi[0..m-1]. *)
Definition pi_observation (p : pnm_vector) (pi : list dbl) : option pnm_vector :=
  if Nat.leb (Z.to_nat (pv_width p)) (length pi) then
    do b <- observe_pi (firstn (Z.to_nat (pv_width p)) pi) (pv_buffer p);
    pv_flush (mk_pnm_vector b (pv_file p) (pv_height p) (pv_width p) (pv_open p))
  else None.
(** The observations of a run, itm-solver-common.hpp:128-137. *)
Fixpoint pi_observations (p : pnm_vector) (l : list (list dbl)) : option pnm_vector :=
  match l with [] => Some p | pi :: l' => do p' <- pi_observation p pi; pi_observations p' l' end.
(** The file img-pi.pnm after a run: construction, observations, destruction. *)
Definition pi_image (opened : bool) (m loop : Z) (l : list (list dbl)) : option (list Z) :=
  do p <- pi_observations (make_pnm_vector opened m loop) l; pv_destroy (Z.to_nat (pv_height p)) p.

(** ** The images of the preferences *)
(** The conversion to unsigned int of a product, pnm.hpp:237-251 *)
Definition wrap32 (z : Z) : Z := z mod 2 ^ 32.
(** pnm_array::size *)
Definition array_size (m n : Z) : Z := wrap32 (3 * m * n).
(** operator bool after the constructor, pnm.hpp:235-247 *)
Definition has_array (m n : Z) : bool := 0 <? wrap32 (n * m).
(** operator()(row, col), pnm.hpp:270-276: the byte of a pixel, [None] when bx_expects fails. The offset is computed with 64 bits. *)
Definition pixel_at (m n : Z) (row col : Z) : option Z :=
  if (row <? m) && (col <? n) then Some ((row * n + col) * 3) else None.
(** The cells of a row, observer.hpp:103-112 *)
Fixpoint draw_row (m n : Z) (k : nat) (P : list dbl) (l : list (nat * nat)) (buf : list Z) : option (list Z) :=
  match l with
  | [] => Some buf
  | (value, column) :: l' =>
    do off <- pixel_at m n (Z.of_nat k) (Z.of_nat column);
    do v <- nth_error P value; do c <- colormap (-1) 1 v;
    do buf <- set_pixel (Z.to_nat off) c buf; draw_row m n k P l' buf
  end.
(** observer.hpp:100-113 *)
Fixpoint draw_rows (m n : Z) (ap : matrix) (P : list dbl) (todo k : nat) (buf : list Z) : option (list Z) :=
  match todo with
  | O => Some buf
  | S todo' => do r <- mx_row ap k; do buf <- draw_row m n k P r buf; draw_rows m n ap P todo' (S k) buf
  end.
(** ap_pnm_observer::make_observation, observer.hpp:88-117: the bytes of one file, [Some None] when no file is written. *)
Definition P_image (m n : Z) (ap : matrix) (P : list dbl) : option (option (list Z)) :=
  if has_array m n then
    do buf <- draw_rows m n ap P (Z.to_nat m) 0 (repeat 0 (Z.to_nat (array_size m n)));
    Some (Some (bytes_of_text (header n m) ++ buf))
  else Some None.
(** The name of a file and the counter m_frame, observer.hpp:116 and 186 *)
Definition frame_name (base ext : text) (frame : Z) : text := base ++ str "-P-" ++ show_int frame ++ str "." ++ ext.
(** The files of the observations of a run. *)
Fixpoint P_images (base : text) (m n : Z) (ap : matrix) (frame : Z) (l : list (list dbl)) : option (list (text * list Z)) :=
  match l with
  | [] => Some []
  | P :: l' =>
    do img <- P_image m n ap P;
    match img with
    | None => P_images base m n ap frame l'
    | Some f => do r <- P_images base m n ap (frame + 1) l'; Some ((frame_name base (str "pnm") frame, f) :: r)
    end
  end.

(** ** The text files *)
Section Text.
(** operator<< on a value of the arrays, and on a float that comes from P (observer.hpp:189-195). *)
Context {F : Type} (show : F -> text) (show_float : F -> text) (zero : F).

(** pi_file_observer::make_observation, observer.hpp:131-150. m_len is never initialised: [len] is whatever the memory holds. *)
Definition pi_line (len : Z) (m : nat) (pi : list F) : option text :=
  do v <- nth_error pi 0;
  if 1 <? len then
    if Nat.leb m (length pi) then Some (show v ++ flat_map (fun w => str " " ++ show w) (firstn (m - 1) (skipn 1 pi)) ++ [nl]) else None
  else Some (show v ++ [nl]).
(** img-pi.txt *)
Fixpoint pi_text (len : Z) (m : nat) (l : list (list F)) : option text :=
  match l with [] => Some [] | pi :: l' => do a <- pi_line len m pi; do b <- pi_text len m l'; Some (a ++ b) end.

(** ap_file_observer::make_observation, observer.hpp:178-200: m_value[column] = P[value] *)
Fixpoint set_values (P : list F) (l : list (nat * nat)) (vs : list F) : option (list F) :=
  match l with
  | [] => Some vs
  | (value, column) :: l' => do v <- nth_error P value; do vs <- list_upd vs column v; set_values P l' vs
  end.
(** observer.hpp:188-199 *)
Fixpoint P_lines (n : nat) (ap : matrix) (P : list F) (todo k : nat) : option text :=
  match todo with
  | O => Some []
  | S todo' =>
    do r <- mx_row ap k; do vs <- set_values P r (repeat zero n);
    do rest <- P_lines n ap P todo' (S k);
    Some (flat_map (fun v => show_float v ++ str " ") vs ++ [nl] ++ rest)
  end.
(** The files img-P-0.txt, img-P-1.txt, ... *)
Fixpoint P_texts (base : text) (m n : nat) (ap : matrix) (frame : Z) (l : list (list F)) : option (list (text * text)) :=
  match l with
  | [] => Some []
  | P :: l' => do f <- P_lines n ap P m 0; do r <- P_texts base m n ap (frame + 1) l'; Some ((frame_name base (str "txt") frame, f) :: r)
  end.
End Text.
